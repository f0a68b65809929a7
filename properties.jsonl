{"id": "C01", "title": "A wrong checksum is always rejected and changes nothing", "statement": "parse_sentence returns CorruptedSentence exactly when the text after the last '*' is non-empty and differs from the two-digit upper-case hexadecimal XOR of the characters between the first character and that '*'. In that case the parser's pending state is unchanged.", "quantifier": "every sentence string, every parser state, both build profiles, every clock value", "why_tests_cant": "infinitely many sentences and histories", "anchors": ["src/lib.rs: NmeaParser::parse_sentence"]}
{"id": "C02", "title": "The checksum is optional and otherwise transparent", "statement": "For a body without '*', parse_sentence gives the same result and the same pending state whether the body is given alone, with a bare trailing '*', or with its correct checksum appended.", "quantifier": "every body, every parser state", "why_tests_cant": "relates three calls on every possible body", "anchors": ["src/lib.rs: NmeaParser::parse_sentence"]}
{"id": "C03", "title": "One damaged character is always detected", "statement": "If a sentence carries its correct checksum and exactly one character of the body after the first is replaced by a different ASCII character, parse_sentence returns CorruptedSentence. In general, whatever happened to the body, it is reported as corrupted exactly if the exclusive or of the low bytes after the first character has changed; so exchanging two characters, changing the first, and replacing a character by one equal modulo 256 are never reported as corruption.", "quantifier": "every body, every position, every replacement character", "why_tests_cant": "every position and replacement of every sentence", "anchors": ["src/lib.rs: NmeaParser::parse_sentence"]}
{"id": "C04", "title": "A sentence without any comma is invalid", "statement": "If the body has no comma and the checksum is not wrong, the result is InvalidSentence carrying the body, and pending state is unchanged.", "quantifier": "every comma-free body, every state", "why_tests_cant": "unbounded strings", "anchors": ["src/lib.rs: NmeaParser::parse_sentence"]}
{"id": "C05", "title": "GNSS sentences are routed by their formatter and tagged with their talker", "statement": "Whenever a $ttFFF sentence parses to GGA/RMC/GSA/GSV/VTG/GLL data, the data variant is the one named by FFF and its source is the navigation system named by tt (GN,GP,GL,GA,BD,GI,QZ; any other two characters give Other).", "quantifier": "every sentence, state and talker", "why_tests_cant": "unbounded sentences and all talker ids", "anchors": ["src/lib.rs: NmeaParser::parse_sentence", "src/gnss/mod.rs: NavigationSystem"]}
{"id": "C06", "title": "AIS results carry the station and the own-vessel flag of the completing sentence", "statement": "Whenever an AIS sentence produces a report, own_vessel is true exactly for VDO and false for VDM, and (where the report has one) station is the one named by the talker id of the sentence that completed it.", "quantifier": "every sentence and parser state", "why_tests_cant": "unbounded sentences", "anchors": ["src/lib.rs: NmeaParser::parse_sentence", "src/ais/mod.rs: Station"]}
{"id": "C07", "title": "Everything outside the supported set is reported as unsupported", "statement": "A sentence whose type is not one of the supported formatters gives UnsupportedSentenceType naming the type and leaves pending state unchanged; an AIS payload whose message type is not in {1,2,3,4,5,6,9,10,18,21,24,27} gives UnsupportedSentenceType.", "quantifier": "every sentence type, every payload", "why_tests_cant": "64 message types times every payload, all type strings", "anchors": ["src/lib.rs: NmeaParser::parse_sentence", "src/ais/vdm_t19.rs: handle"]}
{"id": "C08", "title": "parse_sentence does not panic on any input", "statement": "For every string and every parser state parse_sentence returns (Ok or Err) instead of panicking. The code violates this; the exact set of panicking inputs is characterised per sentence kind, and absence of panics is proved outside it.", "quantifier": "every string, state, clock value and build profile", "why_tests_cant": "absence of a panic on all inputs", "anchors": ["src/lib.rs: NmeaParser::parse_sentence", "src/util.rs: parse_hhmmss, parse_yymmdd_hhmmss, pick_eta, parse_payload", "src/ais/vdm_t4.rs: handle", "src/gnss/gsv.rs: handle"]}
{"id": "C09", "title": "An error never corrupts pending state", "statement": "If parse_sentence returns an error the pending state is unchanged, except that an error about a reassembled two-fragment message consumes the waiting other fragment of that same message and nothing else. So for whole streams: if calls that fail and are not given half of a two-sentence AIS message are left out, all other calls are answered as before and the parser ends in the same state.", "quantifier": "every sentence, every state, every history with failing calls anywhere in it", "why_tests_cant": "every history", "anchors": ["src/lib.rs: NmeaParser::parse_sentence"]}
{"id": "C10", "title": "Single-sentence messages are stateless", "statement": "GGA, RMC, GSA, VTG and GLL sentences and one-fragment AIS sentences other than type 24 give the same result in every parser state and leave the state unchanged.", "quantifier": "every such sentence, every pair of states", "why_tests_cant": "every history before the call", "anchors": ["src/lib.rs: NmeaParser::parse_sentence"]}
{"id": "C11", "title": "Two fragments in order decode the concatenated payload", "statement": "After a first fragment (which returns Incomplete), the second fragment with the same id, channel and sentence type returns exactly what a single sentence with payload1++payload2 would return, no matter which unrelated sentences were parsed in between.", "quantifier": "every pair of payloads, id, channel, talker, every interleaving of unrelated sentences", "why_tests_cant": "all interleavings", "anchors": ["src/lib.rs: NmeaParser::parse_sentence", "src/util.rs: make_fragment_key"]}
{"id": "C12", "title": "Two fragments in reverse order decode the same message", "statement": "The same holds when the second fragment arrives first.", "quantifier": "every pair of payloads, id, channel, every interleaving", "why_tests_cant": "all interleavings", "anchors": ["src/lib.rs: NmeaParser::parse_sentence"]}
{"id": "C13", "title": "A finished message leaves nothing behind and halves never pile up", "statement": "In every reachable state at most one half of any (sentence type, id, channel) message is pending; completing a message restores the pending fragments to what they were before its first fragment arrived.", "quantifier": "every history of calls, including calls that panicked", "why_tests_cant": "invariant over all histories", "anchors": ["src/lib.rs: NmeaParser::parse_sentence"]}
{"id": "C14", "title": "Independent streams do not interfere", "statement": "Sentences that touch different pending entries commute: parsing any interleaving of streams whose sentences share no message key gives every stream the same results as parsing it alone.", "quantifier": "all interleavings of all streams", "why_tests_cant": "every schedule", "anchors": ["src/lib.rs: NmeaParser::parse_sentence", "src/util.rs: make_fragment_key", "src/gnss/gsv.rs: make_gsv_key"]}
{"id": "C15", "title": "Fragments of different talkers are never combined", "statement": "A first fragment from one AIS talker is never joined with a second fragment from another talker. The code violates this (the pending key ignores the talker).", "quantifier": "all pairs of talkers and payloads", "why_tests_cant": "all histories", "anchors": ["src/lib.rs: NmeaParser::parse_sentence", "src/util.rs: make_fragment_key"]}
{"id": "C16", "title": "Unassemblable AIS sentences are Incomplete and store nothing", "statement": "A VDM/VDO sentence with fragment count other than 1 or 2, or count 2 without a message id, or count 2 with fragment number other than 1 or 2, gives Incomplete and leaves pending state unchanged.", "quantifier": "every such sentence, every state", "why_tests_cant": "unbounded sentences", "anchors": ["src/lib.rs: NmeaParser::parse_sentence"]}
{"id": "C17", "title": "Six-bit armoring is decoded exactly", "statement": "For every bit sequence whose length is a multiple of six, decoding its armored text yields that bit sequence; distinct valid payload texts decode to distinct bit sequences.", "quantifier": "all bit sequences of all lengths", "why_tests_cant": "unbounded payloads", "anchors": ["src/util.rs: parse_payload"]}
{"id": "C18", "title": "Characters that are not AIS armor are rejected", "statement": "A payload containing a character outside '0'..'W' and '`'..'w' does not produce a report. The code violates this: such characters are decoded to arbitrary bits (or panic in a checked build).", "quantifier": "all payloads", "why_tests_cant": "unbounded payloads", "anchors": ["src/util.rs: parse_payload"]}
{"id": "C19", "title": "Unsigned and signed fields are read big-endian and two's complement, zero-extended past the end", "statement": "Reading len bits (at most 64) at a position gives the big-endian unsigned (two's-complement signed) value of those bits; bits beyond the end of the payload read as zero.", "quantifier": "all bit vectors, positions and lengths up to 64", "why_tests_cant": "unbounded bit vectors", "anchors": ["src/util.rs: pick_u64, pick_i64"]}
{"id": "C20", "title": "Six-bit text is decoded exactly", "statement": "Any text of encodable characters without '@' and without trailing space, padded with '@' (or with spaces) to the field width, is returned unchanged; every decoded text has at most the field's number of characters, consists of characters in the six-bit set, and has no trailing space.", "quantifier": "all texts and all bit vectors", "why_tests_cant": "unbounded", "anchors": ["src/util.rs: pick_string"]}
{"id": "C21", "title": "Class A position reports (1, 2, 3) decode every field of the ITU layout", "statement": "For every assignment of field values of the ITU-R M.1371 layout for types 1-3, the sentence built from it parses to a report with exactly these values, with 'not available' codes reported as None; rate of turn and special manoeuvre are given as the crate reads them (C35, C36).", "quantifier": "all field values (168 bits), talkers, channels", "why_tests_cant": "2^168 messages", "anchors": ["src/ais/vdm_t1t2t3.rs: handle"]}
{"id": "C22", "title": "Base station reports (4) decode every field", "statement": "For every assignment of field values with a valid calendar date and time, the sentence built from it parses to exactly these values.", "quantifier": "all field values with a valid date", "why_tests_cant": "2^168 messages", "anchors": ["src/ais/vdm_t4.rs: handle"]}
{"id": "C23", "title": "Static and voyage reports (5) decode every field", "statement": "For every assignment of field values of the type 5 layout, reassembled from its two fragments, the report has these values (identity, name, dimensions, draught, destination, ETA month/day/hour/minute) and class A.", "quantifier": "all field values (424 bits), both arrival orders", "why_tests_cant": "2^424 messages", "anchors": ["src/ais/vdm_t5.rs: handle", "src/util.rs: pick_eta"]}
{"id": "C24", "title": "Addressed binary messages (6) decode every header field", "statement": "For every assignment of header values, the report has exactly these values, whatever application data follows.", "quantifier": "all header values and data", "why_tests_cant": "unbounded", "anchors": ["src/ais/vdm_t6.rs: handle"]}
{"id": "C25", "title": "SAR aircraft reports (9) decode every field", "statement": "For every assignment of field values of the type 9 layout, the report has exactly these values, not-available codes as None.", "quantifier": "all field values", "why_tests_cant": "2^168 messages", "anchors": ["src/ais/vdm_t9.rs: handle"]}
{"id": "C26", "title": "UTC inquiries (10) decode both identities", "statement": "For every source and destination MMSI the report carries both.", "quantifier": "all MMSI pairs", "why_tests_cant": "2^60 messages", "anchors": ["src/ais/vdm_t10.rs: handle"]}
{"id": "C27", "title": "Class B position reports (18) decode every field", "statement": "For every assignment of field values of the type 18 layout the report has exactly these values. The code violates this for the class B flags: each is read one bit too early, RAIM is the unit flag, unit and selector flags are not reported.", "quantifier": "all field values", "why_tests_cant": "2^168 messages", "anchors": ["src/ais/vdm_t18.rs: handle"]}
{"id": "C28", "title": "Aid-to-navigation reports (21) decode every field", "statement": "For every assignment of field values of the type 21 layout the report has exactly these values. The code violates this for the off-position indicator and for names whose 20th character is a space.", "quantifier": "all field values and names", "why_tests_cant": "2^272 messages", "anchors": ["src/ais/vdm_t21.rs: handle"]}
{"id": "C29", "title": "Class B static data (24) is assembled from part A and part B", "statement": "For every assignment of part A and part B values with the same MMSI, the first part returns Incomplete and the second returns one report with the values of both, in either order, and the pending entry is removed.", "quantifier": "all field values, both orders, any unrelated sentences in between", "why_tests_cant": "2^328 message pairs and all interleavings", "anchors": ["src/ais/vdm_t24.rs: handle, VesselStaticData::merge"]}
{"id": "C30", "title": "A type 24 report is only returned once both parts were seen", "statement": "A VesselStaticData result from type 24 sentences always combines one part A with one part B. The code violates this: two part As (or two part Bs) are merged.", "quantifier": "all histories", "why_tests_cant": "all histories", "anchors": ["src/ais/vdm_t24.rs: handle"]}
{"id": "C31", "title": "Long range reports (27) decode every field", "statement": "For every assignment of field values of the type 27 layout the report has exactly these values. The code violates this: latitude holds the transmitted longitude, and longitude, speed, course and GNSS status are read from wrong bits.", "quantifier": "all field values", "why_tests_cant": "2^96 messages", "anchors": ["src/ais/vdm_t27.rs: handle"]}
{"id": "C32", "title": "AIS coordinates are the nearest doubles to the transmitted 1/10000 minute values", "statement": "A reported latitude/longitude of types 1-4, 9, 18, 21 is None exactly for the not-available code and otherwise is the double nearest to raw/600000 degrees; different raw values give different doubles.", "quantifier": "all raw values", "why_tests_cant": "2^28 values per coordinate, real-number statement", "anchors": ["src/ais/vdm_t1t2t3.rs: handle"]}
{"id": "C33", "title": "AIS coordinates are in range when transmitted in range", "statement": "A reported latitude is in [-90,90] and longitude in [-180,180] whenever the raw value is; without that restriction the code reports coordinates outside these ranges.", "quantifier": "all raw values", "why_tests_cant": "2^28 values, real-number statement", "anchors": ["src/ais/vdm_t1t2t3.rs: handle"]}
{"id": "C34", "title": "Speed, course and heading have the documented range and resolution", "statement": "Speed over ground of class A/B reports is None exactly for 1023 and otherwise within 1e-12 of raw/10 knots, in [0,102.2]; course is None exactly for 3600 and otherwise within 1e-12 of raw/10; heading None exactly for 511 and otherwise exactly raw.", "quantifier": "all raw values", "why_tests_cant": "real-number statement about floats", "anchors": ["src/ais/vdm_t1t2t3.rs: handle", "src/ais/vdm_t18.rs: handle"]}
{"id": "C35", "title": "Rate of turn stays within the documented 708 degrees per minute", "statement": "The documented range is +-0..708; the sign follows the turn direction. The code violates the range (it reports up to 22376); sign, symmetry, monotonicity and availability are proved.", "quantifier": "all raw rate-of-turn values", "why_tests_cant": "real-number statement about floats", "anchors": ["src/ais/vdm_t1t2t3.rs: handle", "src/ais/mod.rs: VesselDynamicData::rot"]}
{"id": "C36", "title": "The special manoeuvre indicator distinguishes engaged from not engaged", "statement": "Documented: false = not engaged, true = engaged. The code violates this: raw 1 (not engaged) gives true and false is never produced.", "quantifier": "all payloads", "why_tests_cant": "all payloads", "anchors": ["src/ais/vdm_t1t2t3.rs: handle"]}
{"id": "C37", "title": "Missing trailing payload characters read as zero", "statement": "Appending '0' characters to an AIS payload never changes the result or the pending state after a one-fragment sentence.", "quantifier": "all payloads, any number of added characters", "why_tests_cant": "unbounded", "anchors": ["src/util.rs: pick_u64"]}
{"id": "C38", "title": "Fill bits and anything after the payload field are ignored", "statement": "Two AIS sentences that agree on their first six comma-separated fields give the same result and the same state.", "quantifier": "all sentences", "why_tests_cant": "unbounded", "anchors": ["src/lib.rs: NmeaParser::parse_sentence"]}
{"id": "C39", "title": "GGA fields are decoded by position, empty means not available", "statement": "If a GGA sentence parses, every attribute is the value of its field (time of day on the current UTC date, position, quality, satellites, HDOP, altitude, geoid separation, DGPS age, station id), None exactly for an empty or missing field; it errs exactly when one of these fields is malformed.", "quantifier": "all field contents", "why_tests_cant": "unbounded strings", "anchors": ["src/gnss/gga.rs: handle"]}
{"id": "C40", "title": "RMC fields are decoded by position", "statement": "Same for RMC: timestamp from date and time in the current century, status, position, speed, bearing and signed variation.", "quantifier": "all field contents", "why_tests_cant": "unbounded strings", "anchors": ["src/gnss/rmc.rs: handle"]}
{"id": "C41", "title": "GSA fields are decoded by position", "statement": "Same for GSA: mode, fix type, the list of non-empty satellite numbers in order (at most 12), PDOP, HDOP, VDOP.", "quantifier": "all field contents", "why_tests_cant": "unbounded strings", "anchors": ["src/gnss/gsa.rs: handle"]}
{"id": "C42", "title": "GLL fields are decoded by position", "statement": "Same for GLL: position, time, validity, FAA mode.", "quantifier": "all field contents", "why_tests_cant": "unbounded strings", "anchors": ["src/gnss/gll.rs: handle"]}
{"id": "C43", "title": "VTG never fails and decodes by position", "statement": "Every VTG sentence parses; each attribute is the value of its field, None if the field is empty or malformed.", "quantifier": "all field contents", "why_tests_cant": "unbounded strings", "anchors": ["src/gnss/vtg.rs: handle"]}
{"id": "C44", "title": "Text coordinates denote degrees and minutes with the hemisphere's sign", "statement": "DDMM.mmm / DDDMM.mmm text is accepted exactly when it starts with the fixed digits, a dot and at least one digit; the value is within 1e-12 of degrees+minutes/60, non-negative for N/E and negated bit for bit for S/W.", "quantifier": "all strings", "why_tests_cant": "unbounded strings, real-number statement", "anchors": ["src/util.rs: parse_latitude_ddmm_mmm, parse_longitude_dddmm_mmm"]}
{"id": "C45", "title": "Text coordinates are in the legal range", "statement": "A latitude is within [-90,90] and a longitude within [-180,180]. The code violates this (9999.9 gives more than 100 degrees); proved for minutes below 60 and degrees in range.", "quantifier": "all strings", "why_tests_cant": "unbounded strings", "anchors": ["src/util.rs: parse_latitude_ddmm_mmm, parse_longitude_dddmm_mmm"]}
{"id": "C46", "title": "Integer fields accept exactly the decimal numerals in range", "statement": "A numeric field of unsigned type is accepted exactly if it is a non-empty run of ASCII digits, optionally preceded by '+', whose value fits the type, leading zeros allowed; formatting a number and parsing it gives it back. This is stated for the quality, satellite count and reference station of GGA, the satellite numbers of GSA, and the four numbers of each satellite of GSV, where a satellite number out of range drops the satellite and another number out of range is left out.", "quantifier": "all strings", "why_tests_cant": "unbounded strings", "anchors": ["src/util.rs: pick_number_field"]}
{"id": "C47", "title": "Decimal fields are the nearest double to the written number", "statement": "A floating point field that is a plain decimal numeral yields the double nearest to the written value; a value in the double range is finite. Non-finite results are possible (the code accepts inf, nan and 1e999).", "quantifier": "all strings", "why_tests_cant": "unbounded strings, real-number statement", "anchors": ["src/util.rs: pick_number_field"]}
{"id": "C48", "title": "A GSV group is complete in any order", "statement": "For any permutation of the n sentences of a GSV group, the first n-1 calls return Incomplete and the last returns the satellites of all of them in message order, with at most 4n satellites, and pending state is as before the group.", "quantifier": "all group sizes, all arrival orders, all satellite data", "why_tests_cant": "n! orders for all n", "anchors": ["src/gnss/gsv.rs: handle"]}
{"id": "C49", "title": "Malformed satellite entries are skipped, not fatal, and optional values fit their types", "statement": "Each satellite block with a valid PRN contributes one entry with elevation/azimuth/SNR None when absent or malformed; blocks without a valid PRN contribute nothing.", "quantifier": "all block contents", "why_tests_cant": "unbounded strings", "anchors": ["src/gnss/gsv.rs: handle"]}
{"id": "C50", "title": "A GSV sentence numbered outside its group is not kept forever", "statement": "No GSV sentence leaves a pending entry that no later sentence can consume. The code violates this (message number 0 or above the count, or count 0).", "quantifier": "all histories", "why_tests_cant": "all histories", "anchors": ["src/gnss/gsv.rs: handle"]}
{"id": "C51", "title": "Pending memory grows by at most one entry per sentence", "statement": "After n calls at most n entries are pending. There is no bound independent of n.", "quantifier": "all histories", "why_tests_cant": "all histories, unbounded", "anchors": ["src/lib.rs: NmeaParser"]}
{"id": "C52", "title": "Country is a function of the MID of the MMSI", "statement": "country() depends only on mmsi/1000000, is always two upper-case letters, is None for MMSIs whose leading three digits are no MID, and agrees with the MID table of the generator script. The code violates the last part for three MIDs: 445 (North Korea, reported as KR), 660 (Reunion, reported as TF) and 676 (Democratic Republic of the Congo, reported as CG).", "quantifier": "all 2^32 MMSI values", "why_tests_cant": "2^32 values", "anchors": ["src/ais/mod.rs: VesselStaticData::country", "mid-to-iso3166.py"]}
{"id": "C53", "title": "Ship and cargo type codes are classified as documented", "statement": "For every 8-bit code the ship type is the documented one and the cargo type depends on the last digit for 1x,2x,4x,6x,7x,8x,9x. The code violates this for tankers (8x) and other (9x), both reported as cargo.", "quantifier": "all codes", "why_tests_cant": "complete over the code space; tied to every type 5/24 payload", "anchors": ["src/ais/mod.rs: ShipType::new, CargoType::new"]}
{"id": "C54", "title": "ETA is unavailable exactly for the not-available code and otherwise not in the past", "statement": "A type 5 report has eta None exactly when month, day, hour and minute are all not-available; otherwise eta is the next moment with that month/day/hour/minute. The code violates this: it tests the draught bits as seconds and always uses the current year.", "quantifier": "all payloads, all clock values", "why_tests_cant": "all clock values", "anchors": ["src/util.rs: pick_eta"]}
{"id": "C55", "title": "Times of day are placed on the current UTC date", "statement": "A GGA/GLL HHMMSS field with valid digits yields today's date with that time and zero fraction; fractional seconds and following characters are ignored; non-digit text gives no timestamp.", "quantifier": "all strings, all clock values", "why_tests_cant": "unbounded strings, all clock values", "anchors": ["src/util.rs: parse_hhmmss"]}
{"id": "C56", "title": "RMC dates fall in the current century", "statement": "A DDMMYY/HHMMSS pair yields exactly that day and time in the century of the current clock.", "quantifier": "all strings, all clock values", "why_tests_cant": "unbounded strings", "anchors": ["src/util.rs: parse_yymmdd_hhmmss"]}
{"id": "C57", "title": "Missing trailing GNSS fields are the same as empty ones", "statement": "Appending commas to a GGA, RMC, GSA, VTG or GLL sentence does not change its result.", "quantifier": "all sentences, any number of commas", "why_tests_cant": "unbounded", "anchors": ["src/gnss/gga.rs: handle", "src/gnss/rmc.rs: handle", "src/gnss/gsa.rs: handle", "src/gnss/vtg.rs: handle", "src/gnss/gll.rs: handle"]}
{"id": "C58", "title": "FAA mode letters round-trip", "statement": "The modes A, D, E, N are parsed to the mode whose display is that letter and nothing else is accepted; the documented simulator mode has no letter.", "quantifier": "all strings", "why_tests_cant": "unbounded strings", "anchors": ["src/gnss/mod.rs: FaaMode"]}
{"id": "C59", "title": "Merging static data keeps every known value", "statement": "Merging two compatible static-data reports never loses a present value and prefers the newer report; merging in a reachable state never fails.", "quantifier": "all reachable states", "why_tests_cant": "invariant over all histories", "anchors": ["src/ais/vdm_t24.rs: VesselStaticData::merge"]}
{"id": "C60", "title": "A caught panic leaves the parser usable", "statement": "If a call panics, the pending state is unchanged or lost exactly the waiting fragment (or gained exactly the stored GSV sentence) of the message being parsed; all state invariants still hold.", "quantifier": "all sentences and histories", "why_tests_cant": "every crash point", "anchors": ["src/lib.rs: NmeaParser::parse_sentence"]}
{"id": "C61", "title": "Damage to the checksum digits is detected", "statement": "A sentence whose checksum text is anything else than its correct checksum, non-empty and free of '*', is rejected as corrupted (so lower-case digits, one or three digits, or a line end after the checksum are rejected). The code misses one case: the last checksum digit damaged into '*' makes the text after the last '*' empty, which counts as no checksum.", "quantifier": "every body, every checksum text", "why_tests_cant": "arbitrary replacement texts", "anchors": ["src/lib.rs: NmeaParser::parse_sentence"]}
{"id": "C62", "title": "Unreadable fragment numbers are reported and change nothing", "statement": "A VDM/VDO sentence whose fragment count or fragment number is not a decimal numeral from 0 to 255 gives InvalidSentence quoting that field, and the pending state is unchanged.", "quantifier": "every sentence, every such text, every state", "why_tests_cant": "unbounded texts and states", "anchors": ["src/lib.rs: NmeaParser::parse_sentence"]}
{"id": "C63", "title": "Debug and release builds agree unless the debug build panics", "statement": "A call that does not panic in a build with overflow checks returns the same result and leaves the same state in a build without them; so does a whole sequence of calls. The calls that panic in a build with overflow checks are exactly those that panic without them, the messages of GSV groups of 4294967295, and those that complete a payload holding a character whose low byte is below that of '0'.", "quantifier": "every sentence, every parser state, every clock reading", "why_tests_cant": "the test suite runs in one profile; all inputs and states", "anchors": ["src/lib.rs: NmeaParser::parse_sentence"]}
{"id": "C64", "title": "The clock only matters for time stamps", "statement": "Two calls with the same sentence and state at different times leave the same state and return the same result except for the time stamps of GGA, RMC and GLL reports and the arrival time of static data (and except that such a time may be impossible, a panic, at one of the times: 29 February). A result of another kind is the same at any time.", "quantifier": "every sentence, every parser state, every two clock readings; every sequence of calls", "why_tests_cant": "needs two runs of the same call at all pairs of times", "anchors": ["src/lib.rs: NmeaParser::parse_sentence"]}
{"id": "C65", "title": "Nothing is reported or kept that was not received", "statement": "In a parser that started empty, every pending entry holds the payload, sentence or type 24 part of one particular earlier call and was pending ever since. Every AIS report is decoded from the payload of the sentence just parsed, alone or joined (in the right order) with the payload of the other half of the same message in an earlier sentence. Every list of satellites is put together from received messages 1 to n of one group of one talker.", "quantifier": "every sequence of calls, every sentence", "why_tests_cant": "all histories", "anchors": ["src/lib.rs: NmeaParser::parse_sentence", "src/gnss/gsv.rs: handle", "src/ais/vdm_t24.rs: handle"]}
{"id": "C66", "title": "Receiving the same incomplete sentence again changes nothing", "statement": "If a call returns Incomplete, repeating it at once returns Incomplete again and leaves the state as it is (receivers often deliver a sentence twice). The code violates this for the parts of type 24 messages only: the second copy of a part completes a report.", "quantifier": "every sentence, state and clock", "why_tests_cant": "all sentences and states", "anchors": ["src/lib.rs: NmeaParser::parse_sentence", "src/ais/vdm_t24.rs: handle"]}
{"id": "C67", "title": "Texts of sources, qualities and fix kinds identify the value", "statement": "to_string of a navigation system, FAA mode, GGA quality, GSA fix mode, AIS station, AIS class, positioning system state or position fix type tells the value: different values have different texts. The text of the source of a report is the name of the talker of its sentence, the text of a GGA quality and of a GSA fix mode belongs to the digit in the sentence.", "quantifier": "every sentence and state, every pair of values", "why_tests_cant": "ties every sentence to the displayed text", "anchors": ["src/gnss/mod.rs: Display", "src/gnss/gga.rs: Display", "src/gnss/gsa.rs: Display", "src/ais/mod.rs: Display"]}
{"id": "C68", "title": "Texts of aids to navigation, ship types and cargo types identify the value", "statement": "Two type 21 reports show the same text for the aid type only if their codes are the same, and the text of each code is the documented one; likewise for ship types and cargo types. The code violates this: safe water beacons and marks (18, 29) look alike, so do special marks (19, 30), the reserved ship types, the local ship types and the reserved cargo types. No other two values do.", "quantifier": "every pair of type 21 messages, every pair of values", "why_tests_cant": "every message, complete pairs", "anchors": ["src/ais/vdm_t21.rs: Display", "src/ais/mod.rs: Display"]}
{"id": "C69", "title": "The position accessors give the transmitted position", "statement": "latitude() and longitude() of trait LatLon are the doubles nearest to the transmitted latitude and longitude of types 1-4, 9, 18, 21 (None for the not-available codes), those of GGA, RMC and GLL reports the values of the latitude and longitude fields; no other message but type 27 has a position, and the accessors of type 6 give None.", "quantifier": "every payload, every sentence", "why_tests_cant": "unbounded sentences, all payloads", "anchors": ["src/lib.rs: LatLon", "src/ais/mod.rs: LatLon", "src/gnss/gga.rs: LatLon", "src/gnss/rmc.rs: LatLon", "src/gnss/gll.rs: LatLon"]}
{"id": "C70", "title": "Whole numbers in AIS reports fit the documented widths", "statement": "MMSI numbers (30 bits), version indicator (2), IMO number (30), dimensions (9 and 6), draught (8), equipment model (4) and serial number (20), radio status (19, 20 for aircraft), application identifiers (10 and 6), altitude (12), aircraft speed (10), seconds (6) and regional bits (8) of every AIS report are below the power of two of the documented number of bits.", "quantifier": "every sentence in every state reachable by any calls", "why_tests_cant": "all histories and payloads", "anchors": ["src/ais/mod.rs", "src/ais/vdm_t*.rs"]}
{"id": "C71", "title": "Texts in AIS reports are clean and of documented length", "statement": "Call signs have at most 7 characters, vendor identifiers 3, destinations 20, names of vessels 20, names of aids 34; all characters are from the six-bit alphabet, there is no '@' and no space at the end, and a call sign, name or destination that is reported is not empty. The code violates one part: names of class B vessels (type 24) can have up to 120 characters.", "quantifier": "every sentence in every reachable state", "why_tests_cant": "all payloads and histories", "anchors": ["src/ais/mod.rs: VesselStaticData", "src/ais/vdm_t5.rs", "src/ais/vdm_t24.rs", "src/ais/vdm_t21.rs", "src/util.rs: pick_string"]}
{"id": "C72", "title": "AIS values stay in the documented ranges", "statement": "An IMO number is 1-999999999, a draught 1-255, a heading 0-359. The code violates all three: numbers up to 2^30-1, draught 0 (not available) and headings up to 510 are reported. IMO numbers are at least 1, headings whole numbers up to 510.", "quantifier": "every sentence in every reachable state", "why_tests_cant": "all payloads", "anchors": ["src/ais/mod.rs", "src/ais/vdm_t5.rs", "src/ais/vdm_t1t2t3.rs", "src/ais/vdm_t18.rs"]}
{"id": "C73", "title": "Satellite data and station numbers stay in the documented ranges", "statement": "Elevation is at most 90, azimuth at most 359, SNR at most 99, the reference station number at most 4095. The code does not check this: it holds exactly as far as the sentences keep to it.", "quantifier": "every GSV group in every order, every GGA sentence", "why_tests_cant": "unbounded groups and texts", "anchors": ["src/gnss/gsv.rs: handle", "src/gnss/gga.rs: handle"]}
{"id": "C74", "title": "Mothership or dimensions, not both", "statement": "A class B static report gives the MMSI of the mothership if the vessel is an auxiliary craft (MMSI 98xxxxxxx) and the dimensions otherwise. The code violates this: whenever it reports a mothership it reports the dimensions too, and the MMSI is just the number made of the dimension bits.", "quantifier": "every sentence in every reachable state", "why_tests_cant": "all histories", "anchors": ["src/ais/vdm_t24.rs: handle", "src/ais/vdm_t24.rs: merge"]}
{"id": "C75", "title": "Parts of different transmissions are not combined", "statement": "A report never combines parts of different transmissions. The code violates this after a loss: if the first message of a GSV group is lost, then in all following complete in-order transmissions of the same talker and message count the report mixes message 1 with messages 2..c of the transmission before, and if the first half of an AIS message is lost, then in all following complete in-order messages with the same id and channel the report joins the first half with the second half of the message before. It does hold for complete in-order transmissions if the last message of no earlier one is pending.", "quantifier": "every number of transmissions, every group size, every state without (resp. with) pending messages", "why_tests_cant": "unbounded sequences of transmissions and any other pending entries", "anchors": ["src/gnss/gsv.rs: handle", "src/lib.rs: parse_sentence", "src/lib.rs: push_string, pull_string"]}
{"id": "C76", "title": "Equality of reports", "statement": "Two reports compare equal (==) exactly if they are of the same kind and all attributes agree, doubles as numbers (+0 equals -0); equality is symmetric and transitive, and every report equals itself. The last part is violated: a GNSS sentence can contain the text nan, and a report is equal to itself exactly if no attribute is NaN. AIS reports always equal themselves.", "quantifier": "all pairs of reports; all sentences in all reachable states", "why_tests_cant": "equality of arbitrary values, all payloads and texts", "anchors": ["src/lib.rs: ParsedSentence", "src/ais/mod.rs", "src/gnss/*.rs", "#[derive(PartialEq)]"]}
{"id": "C77", "title": "What field errors say", "statement": "A GGA, RMC, GSA, GLL or GSV sentence with legible time stamp (GGA, RMC) is rejected exactly if some field is wrong, and the error is InvalidSentence with a text that names the first wrong field in reading order, with its number or meaning and its contents verbatim. A VDM/VDO sentence whose fragment count or number is wrong is rejected with a text that contains the first wrong one of the two (both texts say 'fragment count').", "quantifier": "all sentences of these types, all states and clocks", "why_tests_cant": "any number of fields can be wrong at once, with arbitrary texts", "anchors": ["src/util.rs: pick_number_field, parse_latitude_ddmm_mmm, parse_longitude_dddmm_mmm", "src/gnss/*.rs", "src/lib.rs:345-382"]}
{"id": "C78", "title": "Which calls fail, and with which error", "statement": "In every reachable state, a call returns an error exactly in the listed situations, with the listed error: wrong checksum, no comma, sentence type that is known but not implemented or unknown, a wrong field (C77), a whole AIS message without payload field, an AIS message of an unsupported type, or a static data report whose part number is 2 or 3. In particular the merge of parts A and B never fails. A call returns Ok exactly if it neither fails this way nor panics (C08).", "quantifier": "all sentences, all reachable states, all clocks from year 0 on", "why_tests_cant": "all texts, all histories", "anchors": ["src/lib.rs: parse_sentence", "src/ais/vdm_t24.rs", "src/ais/vdm_t19.rs", "src/error.rs"]}
{"id": "C79", "title": "The text of an error identifies it", "statement": "ParseError::to_string gives different texts for different errors: if two calls in reachable states return errors with the same text then the errors are equal, including the calculated and given checksum of corrupted sentences, whatever characters the given one consists of. The text of a wrong checksum is: Corrupted NMEA sentence: \"calculated\" != \"given\", with tab, line feed, return, quotation marks, backslash and unprintable characters of the given one shown by escapes and all others as they are. For a given checksum of ordinary ASCII characters the text is: Corrupted NMEA sentence: \"calculated\" != \"given\".", "quantifier": "all pairs of calls in reachable states, all versions of the escaping tables of the standard library", "why_tests_cant": "pairs of arbitrary texts; arbitrary Unicode in the checksum", "anchors": ["src/error.rs: ToString for ParseError", "src/lib.rs:183-185"]}
{"id": "C80", "title": "Texts of ship types, cargo, class and positioning state belong to the transmitted code", "statement": "to_string of the ship type and cargo type of a voyage report (type 5, also truncated) or a class B report (type 24) is the name of the transmitted eight-bit code, to_string of the class of a position report is the class of the transponders that send its message type, and to_string of the state of the positioning system is the name of the time stamp code. The code violates this for ship codes 80 to 99 (tanker, other), which are shown as cargo.", "quantifier": "all messages, states and histories between the parts", "why_tests_cant": "complete over codes; every payload", "anchors": ["src/ais/mod.rs: Display of ShipType, CargoType, AisClass, PositioningSystemMeta"]}
{"id": "C81", "title": "Equal reports mean equal transmissions", "statement": "Two reports of the same kind (position of class A or class B, base station, search and rescue aircraft, UTC inquiry, head of an addressed binary message, voyage data, aid to navigation, class B static data) compare equal with == exactly if their sentences name the same station kind and the same own-vessel flag and carry the same value in every documented field; only repeat indicator, spare bits, message type 1/2/3, manoeuvre codes 1 and 2 (0 and 3), and unnamed position fixing devices 9..15 may differ. Voyage data and aids to navigation may have come in one sentence or in two. In particular no two different positions, speeds, courses, headings or rates of turn are confused by rounding. The code violates this for class B reports, which do not show the assigned mode, RAIM and selector flags, for long range reports, which do not show speed and course, for voyage and class B static data, where cargo ships, tankers and others look the same, and for aids to navigation, whose off-position indicator is not shown.", "quantifier": "all field values, talkers, states, trailing bits; both directions", "why_tests_cant": "a relation between any two of 2^149 messages; rounding could merge neighbouring values anywhere in the range", "anchors": ["src/ais/vdm_t1t2t3.rs:21-142", "src/ais/vdm_t4.rs:73-125", "src/ais/vdm_t6.rs:66-95", "src/ais/vdm_t9.rs:88-159", "src/ais/vdm_t10.rs:42-57", "src/ais/vdm_t5.rs:20-84", "src/ais/vdm_t21.rs:293-367", "src/ais/vdm_t24.rs:20-215", "src/ais/vdm_t18.rs:20-97", "src/ais/vdm_t27.rs:21-94", "src/ais/mod.rs:92 (derived PartialEq)"]}
{"id": "C82", "title": "Which calls wait, and what the others report", "statement": "A call is answered with Incomplete exactly if its sentence is (a) half of a two-part AIS message whose other half is not waiting, (b) an AIS sentence with readable part count and number that is neither a whole message nor a half with identification, (c) a part of a GSV group of which some other part is not waiting (or, without overflow checks, a part of a group of 4294967295), or (d) part A or B of static data that completes while no part of the same vessel is waiting. Every other accepted call returns a report whose kind is that of its GNSS formatter or of the message type of the completed AIS payload; and a call returns a report exactly if it neither panics (C08), fails (C78) nor waits.", "quantifier": "all sentences, all states (for the last part all reachable states), both build profiles", "why_tests_cant": "an exact classification of all sentences in all parser states", "anchors": ["src/lib.rs:166-424", "src/lib.rs:427-556", "src/gnss/gsv.rs:22-88", "src/ais/vdm_t24.rs:98-137"]}
{"id": "C83", "title": "Line ends and unread fields do not matter", "statement": "A sentence followed by CR LF, LF or CR is parsed like the sentence alone; more generally, the result of a GGA, RMC, GSA, GLL or VTG sentence depends on its data fields only, not on units or further fields. The second part holds. The first fails: with a checksum the sentence is rejected as corrupted (the line end counts as part of the checksum); without one it is rejected if it ends in a number, and loses the FAA mode of GLL and VTG; it holds if the last field is not a data field.", "quantifier": "all sentences with any content, all three line ends, all states", "why_tests_cant": "all sentences; tests pass sentences without line end", "anchors": ["src/lib.rs:166-188", "src/gnss/gga.rs:118-137", "src/gnss/rmc.rs:60-96", "src/gnss/gsa.rs:70-107", "src/gnss/gll.rs:54-81", "src/gnss/vtg.rs:44-56", "src/lib.rs:345-382"]}
{"id": "C84", "title": "The log announces what is unusable, and nothing else", "statement": "The lines a call writes to the log are: one debug line iff the sentence has no '*', then one warning if it is an AIS sentence that can never be assembled (unsupported part count, missing identification, part number other than 1 and 2), or the warnings about unknown codes in the completed message (manoeuvre indicator 3, position fix type above 8, ship type). Every accepted but unusable AIS sentence is announced; a warning means that something is wrong with the message; a loss of data is never silent. The last two fail: ship types without cargo digit (0-9, 30-39, 50-59: fishing, sailing, tug, ...) cause a warning, and a half that replaces a waiting half does so without a line.", "quantifier": "all sentences, all states, both build profiles", "why_tests_cant": "exact log contents for all sentences and states; tests do not look at the log", "anchors": ["src/lib.rs:170-177", "src/lib.rs:384-418", "src/ais/mod.rs:410-465", "src/ais/mod.rs:525-565", "src/ais/mod.rs:605-623", "src/ais/vdm_t1t2t3.rs:118-129", "src/ais/vdm_t4.rs:73-125", "src/ais/vdm_t5.rs:20-82", "src/ais/vdm_t21.rs:293-365", "src/ais/vdm_t24.rs:20-139"]}
{"id": "C85", "title": "Lost and inserted characters and lost ends are detected", "statement": "A sentence with checksum that lost or gained one character is rejected as CorruptedSentence and changes nothing, wherever the character was. So is a sentence cut off at any point. The last fails: cut before the '*' the sentence counts as one without checksum. Every class A position report cut after 7 to 10 payload characters is reported as the right vessel at 0 degrees north, 0 degrees east; GNSS numbers lose digits. The data that lie completely in front of the cut are reported right.", "quantifier": "all sentences, all states, all positions of the damage", "why_tests_cant": "no finite set of damaged sentences covers all positions and contents", "anchors": ["src/lib.rs:166-188", "src/util.rs:28-63"]}
{"id": "C86", "title": "Sentences that ran together are rejected", "statement": "Two sentences with checksum passed in one call, with nothing or an end of line between them, are rejected as CorruptedSentence and change nothing. This fails for first sentences with checksum 7B, 7D or 7F directly followed by a '$' sentence, and 7A or 7E followed by CR LF and a '!' sentence: an AIS sentence is then reported and whatever follows is lost without notice. There are no other exceptions.", "quantifier": "all pairs of sentences, all states", "why_tests_cant": "pairs of arbitrary sentences; the exceptions depend on the checksum only", "anchors": ["src/lib.rs:166-188", "src/lib.rs:330-382"]}
{"id": "C87", "title": "Streams that follow the standards need bounded memory", "statement": "A parser fed with sentences whose message identifications are 0 to 9 on the usual radio channels, and whose satellite groups have at most 9 messages numbered from 1, never holds more than 100 texts for AIS plus 36 per GNSS talker, however long the stream. It holds at most one static data report per vessel that sends type 24 messages.", "quantifier": "all histories of conforming sentences of any length, both build profiles", "why_tests_cant": "the bound is about streams of unlimited length", "anchors": ["src/lib.rs:129-161", "src/lib.rs:385-418", "src/gnss/gsv.rs:41-84"]}
{"id": "C88", "title": "Numbers keep their order", "statement": "Of two reported positions the one further north (east) is the one whose transmitted latitude (longitude) is greater, whatever the message types; the same holds for speeds, courses and headings of vessels. Of two latitudes, longitudes or decimal numbers written as text the lower never gives the higher number.", "quantifier": "all pairs of sentences and message types, all states", "why_tests_cant": "rounding could swap neighbours for some of the 2^54 pairs of raw values", "anchors": ["src/ais/vdm_t1t2t3.rs:62-110", "src/util.rs:177-216", "src/util.rs:124-134"]}
{"id": "C89", "title": "How the contents of a GNSS sentence are written does not matter", "statement": "Two GGA, RMC, GSA, GLL or VTG sentences of the same navigation system whose fields have the same contents give the same report, however the contents are written: leading and trailing zeros, plus signs, exponents, fractions of seconds, and anything in fields that are not read.", "quantifier": "all pairs of sentences with the same contents, all states", "why_tests_cant": "unboundedly many ways to write a number", "anchors": ["src/gnss/gga.rs:118-140", "src/gnss/rmc.rs:60-99", "src/gnss/gsa.rs:70-110", "src/gnss/gll.rs:54-84", "src/gnss/vtg.rs:44-60", "src/util.rs:124-216"]}
{"id": "C90", "title": "No received sentence is used for two reports", "statement": "In every history the sentences that the reports are made of (the parts of a satellite group, both fragments of a message, at least one sentence for each of the two parts of static data) and the pending entries together are at most as many as the received sentences. A call that gives a report made of n sentences frees at least n - 1 pending entries.", "quantifier": "every history of calls", "why_tests_cant": "counting over unbounded histories", "anchors": ["src/lib.rs:129-161", "src/lib.rs:385-418", "src/gnss/gsv.rs:41-84", "src/ais/vdm_t24.rs:132-139"]}
{"id": "C91", "title": "Who sent a sentence shows in source, station and own_vessel only", "statement": "Take any history and send the same contents again from others: other talkers in AIS sentences, VDM and VDO exchanged, the talkers of GNSS sentences renamed one to one. Call by call the results are the same apart from source, station and own_vessel (and the name of the formatter in the error for undecoded message types). The talker of an AIS sentence never influences the pending entries or an error.", "quantifier": "all histories, all injective renamings", "why_tests_cant": "pairs of unbounded histories", "anchors": ["src/lib.rs:163-260", "src/lib.rs:335-460", "src/gnss/gsv.rs:41-84", "src/util.rs:22-24"]}
{"id": "C92", "title": "The work per received sentence is proportional to its length", "statement": "The loop rounds of all calls of a history (loops whose number of rounds depends on the sentence or the memory, and the fields that texts are split into) are at most a constant times the characters received, so a sender cannot make the parser work longer than it sends. True up to one term: a GSV sentence costs in addition twice the number of sentences that it announces for its group, whatever the number. Calls that use no memory cost exactly one round for each character after the first, one for each field and seven for each character of an AIS payload; a damaged sentence costs its checksum only.", "quantifier": "every history, every sentence in every state", "why_tests_cant": "a bound on the work over unbounded histories; the expensive input is one number among 2^32", "anchors": ["src/lib.rs:166-187", "src/lib.rs:345-382", "src/lib.rs:385-418", "src/util.rs:28-43", "src/gnss/gsv.rs:41-84"]}
{"id": "C93", "title": "A sender without data is reported as having none", "statement": "A transmission in which every field has the value that ITU-R M.1371 reserves for `not available` gives, apart from the sender and the flags, the default report of its kind: nothing is made up. Holds for types 1-3, 18, 9, 4 and 24 part A. Type 5 gives dimensions and draught of 0 and an arrival today at 23:59:59, type 21 dimensions of 0 and a fix type, type 27 the position 181/91, type 24 part B an empty vendor, dimensions of 0 and the mothership 0. The default class, `unknown`, is that of no report.", "quantifier": "all senders, flags, spare bits and trailing bits; all states", "why_tests_cant": "the specification of one value per field of nine layouts, with all other bits free", "anchors": ["src/ais/mod.rs:65-69", "src/ais/mod.rs:209-213", "src/ais/mod.rs:282-286", "src/ais/mod.rs:468-472", "src/ais/mod.rs:584-588", "src/ais/vdm_t21.rs:235-239", "src/ais/vdm_t1t2t3.rs", "src/ais/vdm_t5.rs", "src/ais/vdm_t27.rs", "src/ais/vdm_t24.rs"]}
{"id": "C94", "title": "What becomes of lost, repeated and reordered fragments", "statement": "Every history has one reading as whole messages: a half of a two-part AIS message waits under its formatter, message identification and radio channel; a half with the same number replaces it; the other half is answered like one sentence that carries the joined payload (first half first) and comes from the talker that completed it; a waiting half is answered with Incomplete. The results of all calls, and everything kept apart from the waiting halves, are those of the whole messages; for each identification at most one half waits, the one of that reading.", "quantifier": "every history of calls, whatever is lost, repeated, reordered or interleaved, with any other sentences between", "why_tests_cant": "all orders and losses of unboundedly many fragments", "anchors": ["src/lib.rs:129-161", "src/lib.rs:337-424"]}
{"id": "C95", "title": "What becomes of lost, repeated and reordered satellite messages", "statement": "Every history determines the answers to its GSV messages and the messages kept: a message waits under its talker, message count and number and replaces an earlier one with the same three; as soon as one with each of the numbers 1 to the count is there, they are reported together in the order of their numbers and none of them is kept. Messages numbered outside their group never complete one. A message that announces 2^32-1 messages panics in builds with overflow checks and otherwise waits.", "quantifier": "every history of calls, whatever is lost, repeated, reordered or interleaved", "why_tests_cant": "all orders, losses and repetitions of unboundedly many messages and groups", "anchors": ["src/gnss/gsv.rs:41-84", "src/lib.rs:129-161"]}
{"id": "C96", "title": "What becomes of the parts of class B static reports", "statement": "In every history, with any other sentences between and whether the messages come in one or two sentences, the type 24 parts of each vessel are answered in pairs: the first waits, the second is reported together with it, with its own values first, and nothing is kept. Part letters play no role: two parts A or two parts B make a report as well.", "quantifier": "every history of calls, every vessel", "why_tests_cant": "all orders, losses and repetitions of unboundedly many parts, fragmented or not", "anchors": ["src/ais/vdm_t24.rs:132-194", "src/lib.rs:143-161", "src/lib.rs:337-424"]}
{"id": "C97", "title": "A parser keeps exactly what still waits", "statement": "After every history the parser keeps exactly three kinds of things: the halves of AIS messages that wait for their other half (C94), the messages of satellite groups that are not complete (C95), and the static parts that wait for a second part (C96). Nothing else of the history is remembered: two histories that leave the same halves, messages and parts waiting leave equal parsers, which answer everything that follows alike.", "quantifier": "every history of calls; every pair of histories with the same waiting items, every continuation", "why_tests_cant": "all histories of unbounded length and all their continuations", "anchors": ["src/lib.rs:87-101", "src/lib.rs:129-161", "src/lib.rs:337-424", "src/gnss/gsv.rs:41-84", "src/ais/vdm_t24.rs:132-138"]}
{"id": "C98", "title": "Handlers called directly do what parse_sentence does", "statement": "The modules of the crate make the handler of each message type and sentence type public. A handler of an AIS message type called directly with any bits, station and own-vessel flag gives what parse_sentence gives, on the same parser, for a one-fragment sentence with a message of that type, the same bits after the six type bits, a talker of that station and the formatter VDO or VDM by the flag; such a sentence always exists. So no handler looks at the type bits. The handlers of GGA, RMC, GSA, VTG and GLL called with any text and navigation system give what parse_sentence gives for a sentence of that type with the same fields after the first comma; such a sentence always exists, whatever stands before the first comma. The handler of GSV called with the text of a satellite sentence acts on the parser as parse_sentence does; called with any text, whatever stands before the first comma, it collects texts with the same beginning and count until there is one for each number, reports their satellites in the order of the numbers and forgets these texts, and it never touches half of an AIS message or the data of a vessel. The public constructors of navigation status, position fix type, quality, ship type, cargo type and FAA mode agree with the tables of the standard on every byte and text (tankers and other ships excepted, see C53), and codes outside a table give 'not defined'; the constructor of FAA modes answers texts outside its table with the error 'Unrecognized FAA information value: ' and the text.", "quantifier": "all bits, texts, stations, navigation systems, flags, parsers, times; all bytes", "why_tests_cant": "all bit vectors and texts", "anchors": ["src/ais/vdm_t1t2t3.rs:21-155", "src/ais/vdm_t24.rs:20-139", "src/gnss/gga.rs:118-137", "src/gnss/gsv.rs:41-80", "src/ais/mod.rs:258-280", "src/gnss/mod.rs:106-116"]}
{"id": "C99", "title": "Which parsers there can be", "statement": "The parsers that a new parser can become, by any number of calls with any texts, are exactly those whose every entry is one of three kinds: half of an AIS message (formatter VDM or VDO, message identification below 2^64, any channel and payload without comma) whose other half is not there; a satellite message with its count and number, of a group of which one message is missing (or that announces 0 or 2^32 - 1 messages); the contents of one static part for the vessel it is about. So no parser keeps both halves of a message, a complete satellite group, or anything under another key; and every combination of such entries does arise. A parser that keeps n entries arises from n sentences and never from fewer. The same parsers arise in builds with and without overflow checks.", "quantifier": "every parser; every history; both build profiles", "why_tests_cant": "all reachable states, and a history for each", "anchors": ["src/lib.rs:87-101", "src/lib.rs:129-161", "src/lib.rs:337-424", "src/gnss/gsv.rs:41-84", "src/ais/vdm_t24.rs:20-139"]}
{"id": "C100", "title": "Every call, completely", "statement": "For every text, every parser there can be, every time and both build profiles, the description says what parse_sentence answers and what the parser keeps, and nothing else happens. The answer is a panic, an error, Incomplete, the report of the fields of a GGA, RMC, GSA, VTG or GLL sentence, the satellites of a complete group in the order of its messages, the report of a complete AIS message of type 1 to 6, 9, 10, 18, 21 or 27 (each field of the report is given as bits of the message, of whatever length), or the merged static data of a vessel of which the other part is kept. Exactly one of these applies. After the call an entry is changed in one of six ways (a half or a part or a satellite message is kept; a kept half, part or group is used up); every other entry is as before. So the answers to any history of calls, and the parser left at its end, are determined by the description alone.", "quantifier": "every text, reachable parser, valid time and build profile; every history", "why_tests_cant": "one answer to each of infinitely many texts in each state; the absence of any other effect", "anchors": ["src/lib.rs:166-659", "src/ais/vdm_t1t2t3.rs:21-170", "src/ais/vdm_t4.rs:73-130", "src/ais/vdm_t5.rs:20-150", "src/ais/vdm_t6.rs:66-134", "src/ais/vdm_t9.rs:88-160", "src/ais/vdm_t10.rs:42-60", "src/ais/vdm_t18.rs:20-110", "src/ais/vdm_t21.rs:293-390", "src/ais/vdm_t24.rs:20-139", "src/ais/vdm_t27.rs:21-110", "src/gnss/gsv.rs:41-153"]}
{"id": "C101", "title": "Equal GNSS reports mean equal data", "statement": "Two GGA, RMC, GSA, GLL or VTG sentences that parse_sentence accepts give equal (==) reports exactly if they name the same navigation system and agree in every datum: the same times, counts and letters, and numbers, positions and magnetic variations that are the same real numbers or missing in both. This holds for numbers of at most fifteen significant digits (and sizes between 1e-300 and 1e300, or zero) and minutes below 60 with at most nine decimals; so no two such measurements, however close, are mixed up by rounding. Sixteen digits are too many.", "quantifier": "every pair of accepted sentences of the same kind, parser, clock and build profile", "why_tests_cant": "differences in the last of fifteen digits, for all pairs of texts", "anchors": ["src/lib.rs:170-524", "src/util.rs:124-212", "src/gnss/gga.rs:81-137", "src/gnss/rmc.rs:60-96", "src/gnss/gsa.rs:70-107", "src/gnss/gll.rs:54-81", "src/gnss/vtg.rs:44-56"]}
{"id": "C102", "title": "The same fact in sentences of different kinds", "statement": "A position, time, speed or course that is the same in two sentences is reported as the same value whatever the kinds of the sentences: GGA, RMC and GLL give the same latitude and longitude for the same degrees, minutes and hemisphere; GGA and GLL give the time RMC gives exactly if the date of the RMC sentence is today's; the same number in any two decimal fields gives the same double; AIS messages of types 1-4, 9, 18 and 21 give the same coordinate exactly for the same transmitted number; and an AIS position, speed or course equals the one of a GNSS sentence that states the same.", "quantifier": "every pair of accepted sentences, parsers, clocks and build profiles", "why_tests_cant": "all pairs of sentences of all kinds; exceptional values are a fraction of those possible", "anchors": ["src/util.rs:175-212", "src/gnss/gga.rs:89-137", "src/gnss/rmc.rs:45-96", "src/gnss/gll.rs:45-81", "src/gnss/vtg.rs:36-56", "src/ais/vdm_t1t2t3.rs:60-95", "src/ais/vdm_t18.rs:32-66", "src/ais/vdm_t4.rs:93-110", "src/ais/vdm_t9.rs:116-140", "src/ais/vdm_t21.rs:313-330"]}
{"id": "C103", "title": "What the README lists is supported", "statement": "A GNSS sentence of a type that README.md lists, and a sentence that completes an AIS message of a type listed there, is never answered with UnsupportedSentenceType; and for each satellite system listed there is a talker whose sentences are reported with this system as source.", "quantifier": "every sentence, parser state reached by calls, clock reading and build profile", "why_tests_cant": "all contents of sentences of all listed types, after any earlier calls", "anchors": ["README.md:92-96", "src/lib.rs:195-245", "src/lib.rs:247-300", "src/lib.rs:436-560", "src/ais/vdm_t19.rs:18-24", "src/gnss/mod.rs:40-84"]}
{"id": "C104", "title": "Coordinates are read by the regular expressions in the source", "statement": "A latitude or longitude of a GGA, RMC or GLL sentence is missing exactly for an empty field. Otherwise the pattern in the source, '^([0-9][0-9])([0-9][0-9]\\.[0-9]+)' (three digits first for a longitude), compiles and matches the longest prefix of the field that belongs to its language; the first group is the degrees, the second a decimal number, the minutes, and the reported value is degrees + minutes/60 in size, to within 1e-12. A non-empty text of which no prefix belongs to the language is refused.", "quantifier": "every GGA, RMC and GLL sentence, every parser state, clock reading and build profile; every field text", "why_tests_cant": "all field texts, with any digits, fraction lengths and trailing characters; all ways a pattern could match", "anchors": ["src/util.rs:177-192", "src/util.rs:197-212"]}
{"id": "C105", "title": "A sentence is the same as text and as UTF-8 bytes", "statement": "Rust strings are UTF-8 bytes and the parser cuts them at byte offsets. Reading the bytes of any Unicode text gives the same result and the same parser as the character-wise description, including where a slice inside a character panics; every valid byte sequence is the encoding of such a text, and encoding followed by decoding gives the text back. For a sentence of ASCII characters the checksum the parser computes is the NMEA checksum, the exclusive or of the bytes sent.", "quantifier": "every Unicode text, every valid UTF-8 byte sequence, every parser state, clock reading and build profile", "why_tests_cant": "all texts with characters of one to four bytes in every position, all parser states", "anchors": ["src/lib.rs:166-245", "src/util.rs:138-140"]}
{"id": "C106", "title": "Which parsers a parser can become", "statement": "From every parser that can arise, further sentences lead to every other parser that can arise, with one exception: the place of a stray satellite message (number 0, number above its count, or a count of 2^32 - 1) is never empty again once something is kept there. So a parser can be brought back to the state of a new one exactly if it keeps no stray satellite message; nothing else that is kept has to stay.", "quantifier": "every pair of parsers that can arise, every history between them, both build profiles", "why_tests_cant": "all pairs of states and all sequences of sentences between them, of any length", "anchors": ["src/lib.rs:166-592", "src/gnss/gsv.rs:41-90", "src/ais/vdm_t24.rs:20-139"]}
{"id": "C107", "title": "A time stamp is the moment that was meant", "statement": "If a sentence says the time of day, or the date with a two-digit year, of the moment T at which it was sent, and it is received within hours, its time stamp is T to the second. The code violates this: a GGA or GLL time stamp is off by as many days as the receiver's date is from the sender's, so a sentence sent before midnight and received after it is dated a day late, in the receiver's future; an RMC time stamp is off by as many centuries, so a sentence sent in the last days of a century and received in the next is dated a hundred years late.", "quantifier": "every sentence of these kinds, every moment T, every clock reading, parser and build profile", "why_tests_cant": "all pairs of moments and clock readings; the failures are seconds around midnight and around New Year of a century", "anchors": ["src/util.rs:136-173", "src/gnss/gga.rs:120-124", "src/gnss/gll.rs:54-65", "src/gnss/rmc.rs:60-66"]}
{"id": "C108", "title": "Every datum depends on its own bits only", "statement": "In the report of an AIS message every datum depends only on the bits that ITU-R M.1371 assigns to it, whatever the other bits, the station, the parser and the build profile; so one wrong bit behind the message type spoils at most one datum, and wrong spare bits none. The code violates this for the ETA of type 5 (its seconds are bits of the draught), six flags of type 18 (each but RAIM is read one bit early), the off-position flag of type 21 (a bit of the dimensions) and position, speed, course and latency of type 27; and the name of type 24 (bits behind its 120 bits, spare by the standard, are read as further letters); it holds for all other data of types 1-6, 9, 10, 18, 21, 24 (both parts one after the other) and 27. Likewise for wrong characters of the payload, and for characters lost at its end: data outside of them are reported alike.", "quantifier": "every pair of messages of the same type, of any bits and lengths, in one sentence or two; every parser, clock and build profile", "why_tests_cant": "pairs of messages; absence of influence of every other bit", "anchors": ["src/ais/vdm_t1t2t3.rs:21-170", "src/ais/vdm_t4.rs:73-130", "src/ais/vdm_t5.rs:20-150", "src/ais/vdm_t6.rs:66-134", "src/ais/vdm_t9.rs:88-160", "src/ais/vdm_t10.rs:42-60", "src/ais/vdm_t18.rs:20-110", "src/ais/vdm_t21.rs:293-390", "src/ais/vdm_t24.rs:20-139", "src/ais/vdm_t27.rs:21-110", "src/util.rs:41-121"]}
{"id": "C109", "title": "Every datum of a GNSS report depends on its own fields only", "statement": "In the report of a GGA, RMC, GSA, GLL or VTG sentence every datum depends only on the fields that NMEA 0183 gives it (and on the clock for time stamps), whatever the texts of the other fields, the talker, what was received before and the build profile. So if one field is wrong and the sentence is still accepted, at most one datum is wrong.", "quantifier": "every pair of accepted sentences of the same kind; every parser, clock reading and build profile", "why_tests_cant": "pairs of sentences; absence of influence of every other field", "anchors": ["src/lib.rs:166-330", "src/gnss/gga.rs:115-137", "src/gnss/rmc.rs:60-96", "src/gnss/gsa.rs:70-107", "src/gnss/gll.rs:54-81", "src/gnss/vtg.rs:36-56"]}
{"id": "C110", "title": "North and south, east and west, port and starboard are mirror images", "statement": "A GGA, RMC or GLL sentence in which one hemisphere letter (or the side of the magnetic variation) is replaced by the opposite letter is accepted too, and its report differs in the sign of that value only, exactly. Two AIS messages with opposite coordinates are reported with exactly opposite coordinates (the codes for `not available` and zero apart), and opposite rates of turn with opposite rates and directions.", "quantifier": "every pair of sentences that differ in one side only; every pair of messages of types 1-4, 9, 18 and 21 with opposite numbers; every parser, clock reading and build profile", "why_tests_cant": "pairs of inputs; exact equality of every double after rounding", "anchors": ["src/util.rs:175-213", "src/gnss/rmc.rs:82-95", "src/ais/vdm_t1t2t3.rs:38-86", "src/ais/vdm_t4.rs:95-110", "src/ais/vdm_t9.rs:118-133", "src/ais/vdm_t18.rs:43-58", "src/ais/vdm_t21.rs:315-330"]}
{"id": "C111", "title": "What a receiver writes is read back", "statement": "A GGA, RMC, GLL, VTG or GSA sentence that a receiver writes from the numbers it means is accepted by every parser and leaves the parser as it was. The report has the time, the date, the status, the modes and the whole numbers that were meant. The nearest whole number of units to each reported double is the number that was meant, for coordinates with up to nine decimals of a minute and other numbers with up to 15 digits. The satellites of a group of GSV sentences that arrive in any order come back complete and in the order written. All this holds for a whole journal of such sentences of any talkers, also if AIS sentences arrive in between. Two limits are shown: sixteen digits are too many, and the mode letter S of simulators is reported as no mode.", "quantifier": "every talker, parser, clock reading and build profile; every record of values in the ranges of NMEA 0183, with any number of decimals up to the limits; every list of 1 to 36 satellites and every order of their sentences", "why_tests_cant": "a round trip over all values; a test checks some sentences and compares printed doubles", "anchors": ["src/gnss/gga.rs:118-137", "src/gnss/rmc.rs:60-96", "src/gnss/gll.rs:54-81", "src/gnss/vtg.rs:44-56", "src/gnss/gsa.rs:70-107", "src/gnss/gsv.rs:41-86", "src/util.rs:124-214"]}
{"id": "C112", "title": "Time stamps are as far apart as the moments meant", "statement": "For two GGA or GLL reports the time between the time stamps equals the time between the moments the senders meant; the same for two RMC reports; a later moment never gets an earlier stamp; different moments get different stamps. Base station reports carry the moment itself. Comparing two date-times is comparing the moments.", "quantifier": "every pair of accepted sentences, parsers, clock readings and moments; every pair of valid date-times", "why_tests_cant": "needs two calls at chosen clock readings around midnight and around a change of century; Utc::now() cannot be set in a test", "anchors": ["src/util.rs:136-172", "src/gnss/gga.rs:124", "src/gnss/gll.rs:65", "src/gnss/rmc.rs:65-66", "src/ais/vdm_t4.rs:84-91", "src/util.rs:116"]}
{"id": "C113", "title": "Which damage the checksum notices", "statement": "A sentence sent with its checksum and received with wrong characters behind the first one is reported as corrupted, with nothing changed, exactly if in one of the eight bits of a character the number of wrong bits is odd. So every odd number of wrong bits, and every burst of wrong bits among at most eight consecutive bits of the line, is noticed. A longer burst may pass, and characters that change places always do: the sentence is then read as it stands.", "quantifier": "every sentence, every combination of wrong bits in any number of characters, every permutation of the characters; every parser, clock reading and build profile", "why_tests_cant": "all combinations of wrong bits (2^(8n) for n characters) and all permutations", "anchors": ["src/lib.rs:166-187"]}
{"id": "C114", "title": "What transponders send is read back", "statement": "A transponder means a position (or part of one, or none), speed, course, heading, the source of its second, its status and so on, encodes them as ITU-R M.1371 says and sends one sentence with its checksum. The parser gives back what was meant: station and own-vessel mark, identity, status, side of the turn, each coordinate within rounding of the ten-thousandths of a minute sent, speed and course of the tenths, heading, second, positioning system, date and time, device, altitude, and the flags and radio status the result has fields for, and none where none was known. This holds for position reports of class A and B vessels, base stations, rescue aircraft and aids to navigation, questions for the time and the heads of addressed messages, for whole logs of them from any state. It also holds for voyage reports in two sentences, cut anywhere, and for both parts of a static report of class B in either order (names, call sign, IMO number, type, dimensions, device, arrival, draught, destination, vendor) if no other half is kept; the first sentence is answered 'incomplete', the last one with the report, and nothing is kept. And it holds for the logs of any number of ships and the journal of a GNSS receiver (C111) on one line in any order, if for different ships the voyage reports differ in channel or message identification and the static reports in MMSI; sentences with a wrong checksum and sentences of other instruments may come anywhere between them, and are all refused as damaged or unsupported without harm to the rest; in the end the parser keeps nothing of all this. Left out are long range reports, nearly all of which is wrong (C31), the size of the rate of turn (C35), the flags of class B (C27), of an aid the indicator off position, a name of more than 20 characters and an unknown device (C28), the class of a voyage report (C23), ship types 80 to 99 (C53), and arrivals that are not in the current year or not known, and their seconds (C54).", "quantifier": "every meant value in the ranges of ITU-R M.1371, every log of any length, every interleaving with a journal, every state of the parser (for the journal: no open satellite groups), every clock reading and build profile", "why_tests_cant": "each report has about 2^100 values; logs and interleavings are unbounded", "anchors": ["src/ais/vdm_t1t2t3.rs:20-145", "src/ais/vdm_t4.rs:66-128", "src/ais/vdm_t9.rs:80-162", "src/ais/vdm_t18.rs:20-98", "src/ais/vdm_t5.rs:20-82", "src/ais/vdm_t6.rs:66-95", "src/ais/vdm_t10.rs:42-57", "src/ais/vdm_t21.rs:293-368", "src/ais/vdm_t24.rs:20-215", "src/lib.rs:149-330"]}
