{"id": "C01", "title": "Integer validators enforce exactly the configured range", "statement": "For a signed_integer or unsigned_integer validator with any range option, parsing an integer that fits the field type succeeds if and only if the integer belongs to the configured set: Inside(min,max) means min<=i and i<=max (i<max when exclusive), Outside(min,max) means not in that set, Unlimited means always; the stored value is the input.", "quantifier": "every range option (Inside/Outside/Unlimited, each bound present or absent, inclusive or exclusive, including bounds that are equal, adjacent, or at the type limits), every field type, every integer", "why_tests_cant": "The generated code has a dozen different shapes selected by the bounds (including a single-value special case computed with checked addition); tests sample a few bounds and a few integers.", "anchors": ["validators-derive/src/validator_handlers/signed_integer/mod.rs: handle_range, v_parse_i", "validators-derive/src/validator_handlers/unsigned_integer/mod.rs: handle_range", "validators-derive/src/common/range.rs: range_equal", "validators-derive/src/common/range_option.rs: RangeTokenStream::from"]}
{"id": "C02", "title": "Integer entry points never truncate and agree with each other", "statement": "Whatever width the integer is presented in (i8..i128, isize, u8..u128, usize), the validator's verdict and stored value depend only on the mathematical integer: it is accepted exactly when it fits the field type and the configured range, and the stored value equals it. Out-of-type values are reported TooLarge above the type and TooSmall below it.", "quantifier": "every field type, every entry point width, every pointer width (16/32/64), every integer of the entry type, every range option", "why_tests_cant": "There are 12 field types times 12 entry points; the interesting inputs are at 2^7..2^127 boundaries of each pair.", "anchors": ["validators-derive/src/validator_handlers/signed_integer/mod.rs: parse_i8..parse_i128, parse_isize", "validators-derive/src/validator_handlers/unsigned_integer/mod.rs: parse_u8..parse_u128, parse_usize", "validators/src/traits/validate_signed_integer.rs", "validators/src/traits/validate_unsigned_integer.rs"]}
{"id": "C03", "title": "Integer strings are accepted exactly when they denote an accepted integer", "statement": "parse_str succeeds with value v exactly when the text is an optional sign (only '+' for unsigned) followed by decimal digits whose value v fits the type and the range; in particular, printing any accepted value in decimal and parsing it returns the same value, and validate_str agrees with parse_str.", "quantifier": "every string, every field type, every range option", "why_tests_cant": "Overflow handling during digit accumulation must be right for strings of every length, including ones with arbitrarily many leading zeros.", "anchors": ["validators-derive/src/validator_handlers/signed_integer/mod.rs: v_parse_str", "validators-derive/src/validator_handlers/unsigned_integer/mod.rs: v_parse_str"]}
{"id": "C04", "title": "Integer range errors name the violated bound", "statement": "When an in-type integer is refused by Inside(min,max), the error is TooSmall exactly when it is below min, and TooLarge otherwise (then it is above the upper bound); when refused by Outside, the error is Forbidden and the integer lies in the configured set.", "quantifier": "every range option, every integer", "why_tests_cant": "The error kind is chosen by separate code in the equal-bounds special case and in the general case.", "anchors": ["validators-derive/src/validator_handlers/signed_integer/mod.rs: handle_range", "validators/src/errors/signed_integer.rs"]}
{"id": "C05", "title": "Number validators enforce the range and the NaN policy", "statement": "For a float validator, a non-NaN value is accepted iff it lies in the configured range and NaN is not required; NaN is accepted iff the NaN policy is not Disallow, and never rejected by the range. -0.0 and 0.0 are treated alike, infinities as ordinary ends of the order.", "quantifier": "every float value (including NaNs, infinities, signed zeros), every range option, every NaN policy", "why_tests_cant": "Float comparison is a partial order and the generated code takes different shapes (partial_cmp versus < and >) depending on the bounds.", "anchors": ["validators-derive/src/validator_handlers/number/mod.rs: handle_range, handle_nan, v_parse_f"]}
{"id": "C06", "title": "An f32 number validator never accepts an f64 outside its range", "statement": "If an f32-backed number validator with an Inside range accepts the f64 x through parse_f64 then x itself lies in the range (not merely its rounding).", "quantifier": "every f64 input, every range of f32 bounds", "why_tests_cant": "The failure needs an f64 within half an ulp (of f32) of a bound.", "anchors": ["validators-derive/src/validator_handlers/number/mod.rs: parse_f64 for TypeEnum f32"]}
{"id": "C07", "title": "Bit and byte validators enforce exactly the configured size bounds", "statement": "A bit/byte validator accepts a size v exactly when min<=v and v<=max (v<max when exclusive), with TooSmall/TooLarge naming the violated bound, through every entry point (string, u64, u128); a u128 that the size type cannot hold is TooLarge.", "quantifier": "every bound combination, every size value, every string understood by the size parser", "why_tests_cant": "Same special-case structure as integers; the bounds are u128 while the size type may be 64-bit.", "anchors": ["validators-derive/src/validator_handlers/bit/mod.rs: v_parse_v", "validators-derive/src/validator_handlers/byte/mod.rs: v_parse_v"]}
{"id": "C08", "title": "Length validators accept exactly the collections whose length is in bounds", "statement": "A length validator accepts a collection iff min<=len and len<=max for the bounds that are present, stores the collection unchanged, and reports TooSmall/TooLarge for the violated bound.", "quantifier": "every collection, every min/max combination with a generated program", "why_tests_cant": "All lengths and bounds.", "anchors": ["validators-derive/src/validator_handlers/length/mod.rs: v_parse_v"]}
{"id": "C09", "title": "Every accepted length attribute generates a program that is well-formed", "statement": "Whenever the derive macro accepts length(min = a, max = b), the code it generates only refers to variables that are in scope.", "quantifier": "every pair of optional bounds accepted by the attribute parser", "why_tests_cant": "Existing tests instantiate one pair of bounds; a macro has a different output for each relation between the bounds.", "anchors": ["validators-derive/src/validator_handlers/length/mod.rs: handle_range", "validators-derive/src/validator_handlers/length/length_attribute.rs"]}
{"id": "C10", "title": "The derive macro never accepts an empty range", "statement": "If the macro accepts a range attribute then at least one value of the mathematical domain satisfies it (min<=max, or min<max when the upper bound is exclusive).", "quantifier": "every range attribute, in keyword form range(Inside(min=..,max=..)) and in literal form range(Inside(a..b)), with and without the full feature", "why_tests_cant": "Compile-time rejection is not exercised by the runtime tests, and the two syntactic forms take different paths.", "anchors": ["validators-derive/src/common/range.rs: Range::from_meta, Range::from_expr_range"]}
{"id": "C11", "title": "Line/text validators without a trimmed minimum: exact acceptance", "statement": "With no trimmed_min, a line (text) is accepted iff it contains no forbidden control character and its length, in characters or in bytes as configured, lies between the bounds that are present; the stored string is the input unchanged.", "quantifier": "every Unicode string, every (unit, min, max) combination", "why_tests_cant": "Eight generated loop shapes per validator; byte-wise and char-wise scanning must agree on every UTF-8 string.", "anchors": ["validators-derive/src/validator_handlers/line/mod.rs: handle_str", "validators-derive/src/validator_handlers/text/mod.rs: handle_str"]}
{"id": "C12", "title": "Line/text validators with a trimmed minimum: exact acceptance", "statement": "With trimmed_min, a string is accepted iff the lengths are in bounds, the length of the string with leading and trailing white space removed is at least trimmed_min, and no forbidden control character occurs (see C13 for the exception found: leading white space is not checked).", "quantifier": "every Unicode string, every (unit, min, trimmed_min, max) combination", "why_tests_cant": "The trimmed length is computed incrementally with two counters and, in the character variants, on a truncated prefix only.", "anchors": ["validators-derive/src/validator_handlers/line/mod.rs: handle_str", "validators-derive/src/validator_handlers/text/mod.rs: handle_str"]}
{"id": "C13", "title": "An accepted line contains no line break or other control character", "statement": "Every string accepted by a line validator is free of U+0000..U+0008, U+000A..U+001F and U+007F (in particular LF and CR); every string accepted by a text validator is free of U+0000..U+0008, U+000C, U+000E..U+001F and U+007F.", "quantifier": "every Unicode string, every length configuration", "why_tests_cant": "The check is duplicated in sixteen code shapes; one missing check in one of them suffices.", "anchors": ["validators-derive/src/validator_handlers/line/mod.rs: handle_str", "validators-derive/src/validator_handlers/text/mod.rs: handle_str"]}
{"id": "C14", "title": "TooLong and TooShort are guarantees", "statement": "As documented on the error type, TooLong is only returned for a string longer than max, and TooShort only for a string shorter than min or whose trimmed length is below trimmed_min.", "quantifier": "every Unicode string, every length configuration", "why_tests_cant": "Depends on interaction of truncation to max+1 characters with trimming.", "anchors": ["validators-derive/src/validator_handlers/line/mod.rs: handle_str", "validators/src/errors/line.rs: LineError", "validators/src/errors/text.rs: TextError"]}
{"id": "C15", "title": "Every accepted line/text length attribute is satisfiable", "statement": "If the macro accepts a char_length/byte_length attribute then some string is accepted by the resulting validator.", "quantifier": "every (unit, min, trimmed_min, max) accepted by the attribute parser", "why_tests_cant": "Existential over strings, universal over configurations.", "anchors": ["validators-derive/src/common/length.rs: Length::from_meta", "validators-derive/src/validator_handlers/line/mod.rs"]}
{"id": "C16", "title": "Boolean strings: exact table, case-insensitively", "statement": "parse_str accepts exactly y, yes, t, true, 1, on (true) and n, no, f, false, 0, off (false), in any ASCII case, and nothing else (no prefix, suffix, white space).", "quantifier": "every string", "why_tests_cant": "A nested hand-written decision tree; a missing end-of-input check at any leaf accepts infinitely many wrong strings.", "anchors": ["validators-derive/src/validator_handlers/boolean/mod.rs: v_parse_str"]}
{"id": "C17", "title": "Boolean entry points agree", "statement": "Parsing a char gives the same answer as parsing the one-character string; parsing an integer (any width, signed or unsigned) gives the same answer as parsing its decimal text for 0 and 1 and fails otherwise; booleans are the identity.", "quantifier": "every char, every integer of every width", "why_tests_cant": "Cross-entry-point consistency over all inputs.", "anchors": ["validators-derive/src/validator_handlers/boolean/mod.rs: v_parse_char, v_parse_i128, v_parse_u128, v_parse_bool"]}
{"id": "C18", "title": "Base32/Base64 byte entry points are memory safe and agree with the string ones", "statement": "Every byte sequence accepted by a base32/base64/base64_url validator consists of ASCII bytes only (so the unchecked UTF-8 conversion is sound), the stored text is byte-for-byte the input, and the byte and string entry points accept the same inputs with the same errors.", "quantifier": "every byte sequence, every padding policy, the three alphabets", "why_tests_cant": "Unsoundness would need one non-ASCII byte position that the scanner skips; positions depend on length modulo the block size.", "anchors": ["validators-derive/src/validator_handlers/base32/mod.rs: v_parse_u8_slice, parse_vec_u8", "validators-derive/src/validator_handlers/base64/mod.rs", "validators-derive/src/validator_handlers/base64_url/mod.rs"]}
{"id": "C19", "title": "Base32/Base64 validators accept exactly the documented shape", "statement": "A nonempty byte sequence is accepted iff it is a sequence of alphabet characters followed by padding that is either absent or fills the last block with the number of '=' that the encoding allows, subject to the padding policy.", "quantifier": "every byte sequence, every padding policy, the three alphabets", "why_tests_cant": "Exact language characterisation over unbounded lengths.", "anchors": ["validators-derive/src/validator_handlers/base32/mod.rs: v_parse_u8_slice", "validators-derive/src/validator_handlers/base64/mod.rs: v_parse_u8_slice", "validators-derive/src/validator_handlers/base64_url/mod.rs: v_parse_u8_slice"]}
{"id": "C20", "title": "Padding policy is honoured", "statement": "padding(Must) only accepts text whose length is a multiple of the block size; padding(Disallow) never accepts text containing '='; padding errors are truthful.", "quantifier": "every byte sequence, every alphabet", "why_tests_cant": "Universally quantified over lengths.", "anchors": ["validators-derive/src/validator_handlers/base64/mod.rs: v_parse_u8_slice"]}
{"id": "C21", "title": "Accepted Base32/Base64 text is decodable", "statement": "Every text accepted by a base32/base64/base64_url validator is the encoding of some byte sequence.", "quantifier": "every byte sequence, every padding policy", "why_tests_cant": "Existential over decoded values.", "anchors": ["validators-derive/src/validator_handlers/base64/mod.rs: v_parse_u8_slice", "validators-derive/src/validator_handlers/base32/mod.rs: v_parse_u8_slice"]}
{"id": "C22", "title": "Decoded validators invert the encoder", "statement": "For every byte sequence d, parsing its canonical encoding (padded when padding is Must, unpadded when Disallow, either when Allow) with the *_decoded validator yields exactly d; and any successfully parsed value re-encodes to a text the validator accepts.", "quantifier": "every byte sequence d (nonempty), every padding policy, the three alphabets", "why_tests_cant": "Round trip over all byte sequences.", "anchors": ["validators-derive/src/validator_handlers/base64_decoded/mod.rs: parse_str", "validators-derive/src/validator_handlers/base32_decoded/mod.rs", "validators-derive/src/validator_handlers/base64_url_decoded/mod.rs"]}
{"id": "C23", "title": "Decoded validators: validate and parse agree", "statement": "validate_str/validate_u8_slice succeeds on exactly the inputs on which parse_str/parse_u8_slice succeeds.", "quantifier": "every byte sequence, every padding policy", "why_tests_cant": "Two different algorithms (hand-written scanner versus decoder library) are used for the two entry points.", "anchors": ["validators-derive/src/validator_handlers/base64_decoded/mod.rs: validate_str, parse_str", "validators-derive/src/validator_handlers/base32_decoded/mod.rs", "validators-derive/src/validator_handlers/base64_url_decoded/mod.rs"]}
{"id": "C24", "title": "Decoded validators round-trip through serde", "statement": "Serialising a *_decoded value and deserialising the result gives back the value.", "quantifier": "every decoded value", "why_tests_cant": "Quantifies over all values; depends on both directions.", "anchors": ["validators-derive/src/validator_handlers/base64_decoded/mod.rs: Serialize, Deserialize"]}
{"id": "C25", "title": "MAC address parsing: exact format and value", "statement": "A mac_address validator accepts exactly twelve hexadecimal digits of the allowed case, with the separator at each of the five group boundaries (all for Must, none for Disallow, each optional for Allow), and the stored value is the 48-bit number those digits denote. (An optional separator that is itself an accepted digit makes the format ambiguous; then only soundness is claimed.)", "quantifier": "every string, every separator policy and character, every case policy", "why_tests_cant": "The positions are computed with a running correction counter; all 2^5 separator patterns and all values matter.", "anchors": ["validators-derive/src/validator_handlers/mac_address/mod.rs: v_parse_str"]}
{"id": "C26", "title": "MAC address parsing never panics", "statement": "parse_str and validate_str of a mac_address validator return Ok or Err on every string.", "quantifier": "every string, every configuration", "why_tests_cant": "A panic needs a particular combination of length and separator positions.", "anchors": ["validators-derive/src/validator_handlers/mac_address/mod.rs: handle_separator"]}
{"id": "C27", "title": "MAC addresses round-trip through their string form", "statement": "For every value obtained by parsing, to_mac_address_string gives a text that the same validator accepts and that denotes the same value; serde serialisation therefore round-trips.", "quantifier": "every 48-bit value, every separator and case policy", "why_tests_cant": "Over all values and configurations; no existing test calls the function.", "anchors": ["validators-derive/src/validator_handlers/mac_address/mod.rs: ToMacAddressString"]}
{"id": "C28", "title": "UUID parsing: exact format and value", "statement": "A uuid validator accepts exactly thirty-two hexadecimal digits of the allowed case in groups 8-4-4-4-12, with the separator at each of the four boundaries (all / none / each optional), and stores the 128-bit number they denote. (An optional separator that is itself an accepted digit makes the format ambiguous; then only soundness is claimed.)", "quantifier": "every string, every separator and case policy", "why_tests_cant": "As C25.", "anchors": ["validators-derive/src/validator_handlers/uuid/mod.rs: v_parse_str"]}
{"id": "C29", "title": "UUID parsing never panics", "statement": "parse_str and validate_str of a uuid validator return Ok or Err on every string.", "quantifier": "every string, every configuration", "why_tests_cant": "Index arithmetic with a running correction counter over all lengths and separator patterns.", "anchors": ["validators-derive/src/validator_handlers/uuid/mod.rs: handle_separator"]}
{"id": "C30", "title": "UUIDs round-trip through their string form", "statement": "For every value obtained by parsing, to_uuid_string gives a text that the same validator accepts and that denotes the same value.", "quantifier": "every 128-bit value, every separator and case policy", "why_tests_cant": "Over all values; no existing test calls the function.", "anchors": ["validators-derive/src/validator_handlers/uuid/mod.rs: ToUuidString"]}
{"id": "C31", "title": "IP validators accept exactly addresses with the permitted port form, and never panic", "statement": "ip/ipv4/ipv6 parsing terminates without panic on every string and succeeds exactly on: an address literal (IPv6 optionally bracketed) when the port is not required, or an address (IPv6 bracketed) followed by ':' and a 16-bit port when a port is not disallowed; the parsed address and port are those denoted by the text.", "quantifier": "every string, every port and local policy", "why_tests_cant": "Splitting at the last colon, bracket handling and slicing have to be right for every string.", "anchors": ["validators-derive/src/validator_handlers/ip/mod.rs: v_parse_str", "validators-derive/src/validator_handlers/ipv4/mod.rs: v_parse_str", "validators-derive/src/validator_handlers/ipv6/mod.rs: v_parse_str"]}
{"id": "C32", "title": "The local policy is exactly the documented address classification", "statement": "local(Must) accepts only, and local(Disallow) never accepts, addresses in the local ranges: 10/8, 172.16/12, 192.168/16, 127/8, 169.254/16, 255.255.255.255, 192.0.2/24, 198.51.100/24, 203.0.113/24, 0.0.0.0; ::, ::1, fe80::/10, fec0::/10, fc00::/7, 2001:db8::/32, multicast of non-global scope, and IPv4-mapped/compatible forms of local IPv4 addresses.", "quantifier": "all 2^32 IPv4 and 2^128 IPv6 addresses", "why_tests_cant": "Masks and boundary addresses; the space cannot be enumerated.", "anchors": ["validators/src/functions/ipv4.rs: is_local_ipv4", "validators/src/functions/ipv6.rs: is_local_ipv6", "validators/src/functions/ip.rs"]}
{"id": "C33", "title": "IP values round-trip through the URI authority string", "statement": "For every value obtained from ip/ipv4/ipv6 parsing, parsing its to_uri_authority_string with the same validator gives the same value (same address, same port).", "quantifier": "all addresses and ports, every policy", "why_tests_cant": "2^128 addresses with zero-run compression and IPv4-mapped notation.", "anchors": ["validators-derive/src/validator_handlers/ip/mod.rs: ToUriAuthorityString", "validators-derive/src/validator_handlers/ipv4/mod.rs", "validators-derive/src/validator_handlers/ipv6/mod.rs"]}
{"id": "C34", "title": "ip is the union of ipv4 and ipv6", "statement": "With the same policies, the ip validator accepts a string iff the ipv4 or the ipv6 validator accepts it, with the same address and port; never both.", "quantifier": "every string, every policy", "why_tests_cant": "Relational property between three separately written parsers.", "anchors": ["validators-derive/src/validator_handlers/ip/mod.rs: v_parse_str", "validators-derive/src/validator_handlers/ipv4/mod.rs: v_parse_str", "validators-derive/src/validator_handlers/ipv6/mod.rs: v_parse_str"]}
{"id": "C35", "title": "Accepted ports are plain decimal numbers", "statement": "When a string is accepted with a port, the port text consists only of decimal digits (RFC 3986 port).", "quantifier": "every string accepted by ip/ipv4/ipv6/domain/host", "why_tests_cant": "The integer parser of the standard library accepts more than digits.", "anchors": ["validators-derive/src/validator_handlers/ipv4/mod.rs: v_parse_str", "validators-derive/src/validator_handlers/host/mod.rs: v_parse_str"]}
{"id": "C36", "title": "Domain policies are enforced on the returned value", "statement": "If a domain validator accepts a string then: no port is present when disallowed and one is present when required; the domain part is (is not) an IPv4 address when ipv4 is Must (Disallow); it is (is not) local when local is Must (Disallow); unless local, it has (has not) at least two labels when at_least_two_labels is Must (Disallow); the is_ipv4 and is_local fields, when present, tell the truth.", "quantifier": "every string, all 81 policy combinations, every behaviour of the IDNA library", "why_tests_cant": "81 generated programs, unbounded inputs.", "anchors": ["validators-derive/src/validator_handlers/domain/mod.rs: v_parse_str, create_instance"]}
{"id": "C37", "title": "The stored domain contains no port, and the authority string denotes the same value", "statement": "The domain field of an accepted value never contains the ':port' suffix of the input, and re-parsing to_uri_authority_string yields the same domain (up to a final dot) and port.", "quantifier": "every string, every policy, every IDNA behaviour with the stated laws", "why_tests_cant": "Needs the right policy/input combination out of 81 programs.", "anchors": ["validators-derive/src/validator_handlers/domain/mod.rs: v_parse_str, ToUriAuthorityString"]}
{"id": "C38", "title": "Domain parsing never panics and builds every field it promises", "statement": "Domain parsing returns Ok or Err on every string (the unwrap of the port in the Must configuration cannot fail, slicing is always on character boundaries).", "quantifier": "every string, all policies, every IDNA behaviour", "why_tests_cant": "Panic freedom for all inputs.", "anchors": ["validators-derive/src/validator_handlers/domain/mod.rs: v_parse_str, create_instance"]}
{"id": "C39", "title": "Host policies are enforced on the returned value", "statement": "If a host validator accepts a string then its port, local and at_least_two_labels policies hold of the returned host and port, and the is_local field, when present, tells the truth.", "quantifier": "every string, all policy combinations, every IDNA behaviour", "why_tests_cant": "Many generated programs, unbounded inputs.", "anchors": ["validators-derive/src/validator_handlers/host/mod.rs: v_parse_str, create_instance"]}
{"id": "C40", "title": "Host parsing never panics", "statement": "Host parsing returns Ok or Err on every string.", "quantifier": "every string, all policies, every IDNA behaviour", "why_tests_cant": "Panic freedom for all inputs.", "anchors": ["validators-derive/src/validator_handlers/host/mod.rs: v_parse_str"]}
{"id": "C41", "title": "Hosts round-trip through the URI authority string", "statement": "For every value obtained from host parsing, parsing its to_uri_authority_string with the same validator gives the same host and port.", "quantifier": "every string, every policy, every IDNA behaviour with the stated laws", "why_tests_cant": "Needs IP print/parse round trip for all addresses and a fixed-point law for IDNA.", "anchors": ["validators-derive/src/validator_handlers/host/mod.rs: ToUriAuthorityString"]}
{"id": "C42", "title": "Email parsing never panics", "statement": "Email parsing returns Ok or Err on every string, in both debug and release builds.", "quantifier": "every string, all policies, every IDNA behaviour", "why_tests_cant": "Needs particular lengths (unsigned subtraction).", "anchors": ["validators-derive/src/validator_handlers/email/mod.rs: v_parse_str"]}
{"id": "C43", "title": "An accepted email has a local part of at most 64 octets", "statement": "The local part stored for an accepted email address is nonempty and at most 64 octets long.", "quantifier": "every string, all policies", "why_tests_cant": "The bound is enforced per byte class at different positions; a missing case needs a specific byte at a specific position.", "anchors": ["validators-derive/src/validator_handlers/email/mod.rs: v_parse_str"]}
{"id": "C44", "title": "An accepted email is consumed completely", "statement": "Everything in an accepted string belongs to one of: comment, local part, comment, '@', comment, domain part, comment; there is no text after the last comment.", "quantifier": "every string, all policies", "why_tests_cant": "Parsing by index; end-of-input checks needed on every path.", "anchors": ["validators-derive/src/validator_handlers/email/mod.rs: v_parse_str"]}
{"id": "C45", "title": "Unquoted local parts are dot-atoms", "statement": "The local part of an accepted address written without quotes is a sequence of nonempty dot-separated runs of permitted characters (no leading, trailing or doubled dot).", "quantifier": "every string, all policies", "why_tests_cant": "Language property over unbounded strings.", "anchors": ["validators-derive/src/validator_handlers/email/mod.rs: v_parse_str"]}
{"id": "C46", "title": "Emails round-trip through to_email_string", "statement": "For every accepted address, to_email_string gives a text that the same validator accepts and that denotes the same local part, domain and comments.", "quantifier": "every string, all policies, every IDNA behaviour with the stated laws", "why_tests_cant": "Quoting depends on all bytes of the local part.", "anchors": ["validators-derive/src/validator_handlers/email/mod.rs: ToEmailString"]}
{"id": "C47", "title": "Email policies are enforced on the returned value", "statement": "If an email validator accepts a string then the ip, local, at_least_two_labels and comment policies hold of the returned value, and is_local, when present, tells the truth.", "quantifier": "every string, all policies, every IDNA behaviour", "why_tests_cant": "Many generated programs, unbounded inputs.", "anchors": ["validators-derive/src/validator_handlers/email/mod.rs: v_parse_str, create_instance"]}
{"id": "C48", "title": "Integer and number values round-trip through JSON", "statement": "Serialising an accepted integer/number and deserialising the JSON gives the value back.", "quantifier": "every accepted value, every field type", "why_tests_cant": "Depends on how the format presents each value to the visitor.", "anchors": ["validators-derive/src/validator_handlers/signed_integer/mod.rs: Deserialize", "validators-derive/src/validator_handlers/unsigned_integer/mod.rs: Deserialize", "validators-derive/src/validator_handlers/number/mod.rs: Deserialize"]}
{"id": "C49", "title": "Deserialising a url/semver/semver_req value terminates", "statement": "deserialize returns Ok or Err for every input.", "quantifier": "every input", "why_tests_cant": "Non-termination is not observable by a passing test and no test deserialises these types.", "anchors": ["validators-derive/src/validator_handlers/url/mod.rs: Deserialize", "validators-derive/src/validator_handlers/semver/mod.rs: Deserialize", "validators-derive/src/validator_handlers/semver_req/mod.rs: Deserialize"]}
{"id": "C50", "title": "The Result wrapper is transparent", "statement": "Converting or deserialising into validators::Result<T,E> never fails for an input kind that the wrapper accepts, and holds exactly what T's own parse function returns; it accepts every input kind that T's own Deserialize accepts.", "quantifier": "every validator kind, every input", "why_tests_cant": "Relational property over all inputs and validator kinds.", "anchors": ["validators/src/result/serde_traits.rs", "validators/src/result/built_in_traits.rs"]}
{"id": "C51", "title": "Phone validators: country semantics", "statement": "With several countries, the set of accepted strings does not depend on the order in which the countries are tried, every returned number is valid for the country it is listed under, and a string valid for one listed country is accepted.", "quantifier": "every behaviour of the phone-number library, every country list, every string", "why_tests_cant": "The iteration order is that of a randomised hash set at compile time; the library's behaviour is arbitrary.", "anchors": ["validators-derive/src/validator_handlers/phone/mod.rs: v_parse_str", "validators-derive/src/validator_handlers/phone/phone_attribute.rs"]}
{"id": "C52", "title": "JSON values round-trip through serde", "statement": "Serialising a json-validated value and deserialising the result gives back the value.", "quantifier": "every value of the wrapped type", "why_tests_cant": "Depends on both directions for all values.", "anchors": ["validators-derive/src/validator_handlers/json/mod.rs: Serialize, Deserialize"]}
{"id": "C53", "title": "Attribute parameters: order is irrelevant, duplicates are refused", "statement": "Permuting the parameters of a range or length attribute does not change the outcome of the macro, a parameter given twice is always an error, and a parameter that is not given keeps its default.", "quantifier": "every list of parameters", "why_tests_cant": "All permutations of parameter lists.", "anchors": ["validators-derive/src/common/range.rs: Range::from_meta", "validators-derive/src/common/length.rs: Length::from_meta", "validators-derive/src/validator_handlers/length/length_attribute.rs"]}
{"id": "C54", "title": "HTTP URL validators report the right protocol and enforce the local policy", "statement": "If an http_url/http_ftp_url validator accepts a text then the text starts, in any ASCII case, with the scheme it reports, and the host of the parsed URL is (is not) local when local is Must (Disallow).", "quantifier": "every string, every behaviour of the URL library", "why_tests_cant": "'http:' and 'https:' prefixes must not be confused for any input; library behaviour is arbitrary.", "anchors": ["validators-derive/src/validator_handlers/http_url/mod.rs: v_parse_str", "validators-derive/src/validator_handlers/http_ftp_url/mod.rs: v_parse_str"]}
{"id": "C55", "title": "Fully-qualified handling of domains", "statement": "get_domain_non_fully_qualified removes exactly one final dot if there is one, never panics, and is_fully_qualified holds iff a final dot is present; a domain is local or has two labels independently of the final dot.", "quantifier": "every stored domain", "why_tests_cant": "String slicing on all domains.", "anchors": ["validators-derive/src/validator_handlers/domain/mod.rs: QualifyDomain", "validators/src/functions/domain.rs"]}
{"id": "C56", "title": "ip(Disallow) emails never have an IP address for a domain", "statement": "An email validator with ip(Disallow) and local(Disallow) never accepts an address whose domain part is the text of an IP address, in particular not that of a local one.", "quantifier": "every string, every configuration with ip(Disallow)", "why_tests_cant": "Address literals are only recognised by a bracket; the absence of another route needs all strings.", "anchors": ["validators-derive/src/validator_handlers/email/mod.rs: handle_ip, handle_domain"]}
{"id": "C57", "title": "non_ascii(Disallow) emails are ASCII", "statement": "With non_ascii(Disallow) the local part and the comments of an accepted address contain only ASCII characters.", "quantifier": "every string, all configurations with non_ascii(Disallow)", "why_tests_cant": "Quantifies over all strings and all positions of a non-ASCII character.", "anchors": ["validators-derive/src/validator_handlers/email/mod.rs: v_parse_str"]}
{"id": "C58", "title": "Quoted local parts follow the quoted-string grammar", "statement": "A quoted local part made of permitted characters, blanks and backslash pairs is accepted if it fits, a backslash escapes exactly the next character, and need_quoted tells whether the quotes are needed.", "quantifier": "every quoted string of at most 62 bytes, every domain part", "why_tests_cant": "Escape state machine over unbounded strings.", "anchors": ["validators-derive/src/validator_handlers/email/mod.rs: v_parse_str (quoted local part)"]}
{"id": "C60", "title": "HTTP URL values round-trip through serde", "statement": "Serialising an accepted http_url/http_ftp_url value (a string: its normalised URL) and deserialising the result gives back the same URL and protocol, provided the URL library re-reads its own output.", "quantifier": "every accepted value, every behaviour of the URL library that re-reads its own output", "why_tests_cant": "Quantifies over all URLs and all library behaviours; the protocol is recomputed from the normalised text.", "anchors": ["validators-derive/src/validator_handlers/http_url/mod.rs: Serialize, Deserialize", "validators-derive/src/validator_handlers/http_ftp_url/mod.rs: Serialize, Deserialize"]}
{"id": "C61", "title": "ProtocolError means the scheme is wrong", "statement": "An http_url/http_ftp_url validator returns ProtocolError only when the scheme of the text, as the URL library reads it, is not one of the accepted schemes.", "quantifier": "every string, every behaviour of the URL library", "why_tests_cant": "The prefix test on the raw text has to agree with the library for every text, including those with leading blanks that the library strips.", "anchors": ["validators/src/errors/http_url.rs", "validators-derive/src/validator_handlers/http_url/mod.rs: v_parse_str"]}
{"id": "C62", "title": "Phone values round-trip through serde", "statement": "Serialising an accepted phone value and deserialising the result gives back the value.", "quantifier": "every phone number, every behaviour of the phone-number library", "why_tests_cant": "Depends on the shape of what the library serialises for all values.", "anchors": ["validators-derive/src/validator_handlers/phone/mod.rs: Serialize, Deserialize"]}
{"id": "C59", "title": "JSON numbers that denote an accepted value are accepted", "statement": "A JSON number (or boolean) that denotes a value which the validator's own parse method accepts is deserialised to that value by signed_integer, unsigned_integer, number, boolean and byte validators.", "quantifier": "every JSON number, every range and field type", "why_tests_cant": "Which visitor method a format calls depends on sign and size of each number; quantifies over all numbers.", "anchors": ["validators-derive/src/validator_handlers/signed_integer/mod.rs: Deserialize", "validators-derive/src/validator_handlers/number/mod.rs: Deserialize", "validators-derive/src/validator_handlers/byte/mod.rs: Deserialize"]}
{"id": "C63", "title": "Boolean, line, text, regex and length values round-trip through serde", "statement": "Serialising an accepted value and deserialising the result, in JSON or in a format that presents what was written, gives back the value.", "quantifier": "every accepted value, every configuration, every regular expression, every collection type that itself round-trips", "why_tests_cant": "Quantifies over all values and configurations.", "anchors": ["validators-derive/src/validator_handlers/boolean/mod.rs", "validators-derive/src/validator_handlers/line/mod.rs", "validators-derive/src/validator_handlers/text/mod.rs", "validators-derive/src/validator_handlers/regex/mod.rs", "validators-derive/src/validator_handlers/length/mod.rs"]}
{"id": "C64", "title": "The entry points of a json validator agree", "statement": "parse_i8 .. parse_u128, parse_f32, parse_f64 and parse_bool accept a value exactly as parse_json_value accepts the JSON value that denotes it (and parse_str its text).", "quantifier": "every wrapped type, every integer, float and boolean", "why_tests_cant": "Quantifies over all numbers and all wrapped types.", "anchors": ["validators-derive/src/validator_handlers/json/mod.rs: v_parse_i128, v_parse_u128, v_parse_f64, v_parse_bool"]}
{"id": "C65", "title": "Deserialising a JSON string is parse_str", "statement": "Every validator with a visitor deserialises a JSON string exactly as parse_str reads the text, with the same error.", "quantifier": "every such validator, every string", "why_tests_cant": "Relational property over all validators and strings.", "anchors": ["validators-derive/src/validator_handlers/*/mod.rs: Deserialize"]}
{"id": "C66", "title": "Attribute arguments mean what they say", "statement": "`#[validator(name(args))]` is accepted exactly when every argument is one of the validator's parameters, none is given twice, and each is written in its documented form (word in list or name-value form, literal, range, country list ...). The resulting configuration gives every written parameter the value written and every other parameter its documented default, whatever the order of the arguments.", "quantifier": "every argument list (any syntax tree syn can hand to the macro), every parameter order, every combination of the serde/rocket cargo features, all validators", "why_tests_cant": "Quantifies over all syntax trees and permutations of arguments; a wrong default or a swapped field compiles and only shows up as a policy that is silently not enforced.", "anchors": ["validators-derive/src/common/attributes/*.rs: build_from_meta", "validators-derive/src/common/tri_allow.rs", "validators-derive/src/common/case_option.rs", "validators-derive/src/common/separator_option.rs"]}
{"id": "C67", "title": "serde and rocket options decide exactly which impls are generated", "statement": "With the cargo feature on, `serde`/`rocket` absent, bare or `= true` generates both impls, `= false` none, and the list form exactly the listed ones. With the feature off no impl is generated and the only accepted spelling is `= false`.", "quantifier": "every argument list, every feature combination, all validators", "why_tests_cant": "Needs one compilation per attribute text and feature combination; the space is unbounded.", "anchors": ["validators-derive/src/common/serde_options.rs", "validators-derive/src/common/rocket_options.rs", "validators-derive/src/validator_handlers/base32/mod.rs: 201-286"]}
{"id": "C68", "title": "Arguments of a range option are never ignored", "statement": "A `range(..)` argument accepted by the macro yields Inside, Outside or Unlimited as written with the bounds written, and arguments given to the option word are not dropped.", "quantifier": "every range argument, every number type", "why_tests_cant": "Quantifies over all argument lists.", "anchors": ["validators-derive/src/common/range_option.rs"]}
{"id": "C69", "title": "A struct accepted by the derive macro fits the generated code", "statement": "If #[derive(Validator)] accepts a struct, then every struct literal and field access of the generated implementation names exactly the fields of that struct, so no secondary rustc error can follow; every struct with these fields is accepted whatever their order; port(Must/Allow/Disallow) gives a u16 field, an Option<u16> field or none; numeric validators accept exactly the numeric field types of their sign; and the struct printed in the compile error is the struct that is needed.", "quantifier": "for all validators, attribute parameters, policies and structs (any number and order of fields)", "why_tests_cant": "The repository's tests only contain structs that compile; the combinations of 31 validators, their policies and arbitrary structs, and the refused ones, are unbounded, and compile errors are not tested at all.", "anchors": ["validators-derive/src/lib.rs", "validators-derive/src/validator_handlers/domain/mod.rs", "validators-derive/src/validator_handlers/http_url/mod.rs", "validators-derive/src/validator_handlers/phone/mod.rs", "validators-derive/src/common/type_enum.rs"]}
{"id": "C70", "title": "Exactly one validator attribute decides what is generated", "statement": "The derive macro generates code only if exactly one attribute of the type is #[validator(..)], with one argument named after a validator whose cargo feature is enabled, and then it generates that validator; all other attributes are irrelevant wherever they stand; no or two validator attributes is an error.", "quantifier": "for all lists of attributes, enabled feature sets and structs", "why_tests_cant": "It ranges over all attribute lists and all cargo feature combinations; a test is compiled with one.", "anchors": ["validators-derive/src/lib.rs", "validators-derive/src/supported_validators.rs"]}
{"id": "C71", "title": "What is written in the attribute is what the type accepts", "statement": "For every struct the macro accepts, the policies, bounds, separators, cases and countries written in its attribute (with the documented defaults for those left out) are exactly the ones parse_str enforces: a text is accepted if and only if it has the form and meets those policies, whatever the order and spelling of the parameters.", "quantifier": "for all attributes, all accepted structs and all input texts, for each validator with parameters", "why_tests_cant": "It is an end-to-end statement over all attribute texts and all inputs; tests cover some attributes with some inputs each.", "anchors": ["validators-derive/src/lib.rs", "validators-derive/src/validator_handlers/domain/mod.rs", "validators-derive/src/validator_handlers/email/mod.rs", "validators-derive/src/validator_handlers/signed_integer/mod.rs"]}
{"id": "C72", "title": "Only contradictory policies are refused as contradictory", "statement": "Without conflict(Allow), the macro refuses a combination of policies as contradictory if and only if no text at all could be accepted under it; every other configuration accepts some text.", "quantifier": "for all combinations of policies of domain, email, host, ip, number, mac_address and uuid, and all input texts", "why_tests_cant": "That no text at all is accepted is a statement about infinitely many inputs for each of the policy combinations.", "anchors": ["validators-derive/src/validator_handlers/domain/mod.rs", "validators-derive/src/validator_handlers/email/mod.rs", "validators-derive/src/validator_handlers/number/mod.rs", "validators-derive/src/common/separator_option.rs"]}
{"id": "C73", "title": "Allow accepts exactly what Must or Disallow accepts", "statement": "For every policy of every validator, a text is accepted under Allow if and only if it is accepted under Must or under Disallow, with the same value; Must and Disallow never both accept, except where the documentation lets them (local names for at_least_two_labels, whole blocks without padding).", "quantifier": "for all input texts, all three settings of the policy in question, and all settings of the other policies of the validator", "why_tests_cant": "It compares three generated validators on every text at once; a test compares single verdicts.", "anchors": ["validators-derive/src/common/tri_allow.rs", "validators-derive/src/validator_handlers/ip/mod.rs", "validators-derive/src/validator_handlers/domain/mod.rs", "validators-derive/src/validator_handlers/host/mod.rs", "validators-derive/src/validator_handlers/email/mod.rs", "validators-derive/src/validator_handlers/base64_decoded/mod.rs", "validators-derive/src/validator_handlers/mac_address/mod.rs", "validators-derive/src/validator_handlers/uuid/mod.rs"]}
{"id": "C74", "title": "The error says why the text was refused", "statement": "The error Invalid means that no choice of the policies accepts the text. An error that names a policy means that this policy is set to the value named, and that a text refused only because of it is accepted under the opposite value.", "quantifier": "for all input texts and all combinations of policies of ip, ipv4, ipv6, domain, host, email, base32/64, mac_address, uuid, http_url and http_ftp_url", "why_tests_cant": "It relates the error under one configuration to the verdict under all other configurations, for every text.", "anchors": ["validators/src/errors/ip.rs", "validators/src/errors/domain.rs", "validators/src/errors/host.rs", "validators/src/errors/email.rs", "validators-derive/src/validator_handlers/ip/mod.rs", "validators-derive/src/validator_handlers/domain/mod.rs", "validators-derive/src/validator_handlers/email/mod.rs", "validators-derive/src/validator_handlers/mac_address/mod.rs"]}
{"id": "C75", "title": "What the documentation of an error guarantees is true of the text", "statement": "Every error variant whose documentation says \"it is guaranteed that ...\" (the port is missing, the domain part is or is not local, is or is not an IPv4 or IP address, has one label, has at least two labels, padding or separators are absent) is returned only for texts of which that is true.", "quantifier": "for all input texts and all policies of ip, ipv4, ipv6, domain, host, email, base32/64, mac_address and uuid", "why_tests_cant": "The guarantee is about every text that any configuration refuses with the error, including malformed texts that nobody thought of testing.", "anchors": ["validators/src/errors/ip.rs", "validators/src/errors/ipv4.rs", "validators/src/errors/ipv6.rs", "validators/src/errors/domain.rs", "validators/src/errors/host.rs", "validators/src/errors/email.rs", "validators/src/errors/base64.rs", "validators/src/errors/mac_address.rs", "validators/src/errors/uuid.rs"]}
{"id": "C76", "title": "Validators for related things agree with each other", "statement": "A host validator reads addresses exactly as the ip validator does and names exactly as the domain validator without IPv4 does (except names with a final dot); the domain part of an accepted email is what the host or ip validator makes of that part alone, and every host name makes an email address; every line is a text; every http URL is an http/ftp URL with the same protocol; a decodable base text is a base text (except when padding stands inside); a number text that a signed and an unsigned validator can both hold is accepted by both or neither.", "quantifier": "for all input texts, all policies, all IDNA and URL behaviours satisfying the stated laws", "why_tests_cant": "Each claim compares two validators on all texts; users rely on it when a value checked by one type is handed to another.", "anchors": ["validators-derive/src/validator_handlers/host/mod.rs", "validators-derive/src/validator_handlers/domain/mod.rs", "validators-derive/src/validator_handlers/ip/mod.rs", "validators-derive/src/validator_handlers/email/mod.rs", "validators-derive/src/validator_handlers/line/mod.rs", "validators-derive/src/validator_handlers/text/mod.rs", "validators-derive/src/validator_handlers/http_url/mod.rs", "validators-derive/src/validator_handlers/http_ftp_url/mod.rs", "validators-derive/src/validator_handlers/base64/mod.rs", "validators-derive/src/validator_handlers/base64_decoded/mod.rs"]}
{"id": "C77", "title": "A number text is accepted exactly when the nearest float is allowed", "statement": "A number validator accepts a text exactly when it follows the grammar of numbers (optional sign, digits with an optional point, optional exponent, or inf, infinity, nan in any case) and the float nearest to the number written, ties to even, is allowed by the range and NaN policy; that float is kept. Integers up to 2^24 (f32) or 2^53 (f64) are kept exactly, and every number between inclusive bounds is accepted. It is not true that only numbers in the range are accepted, nor that reading a number as f64 first gives the same f32.", "quantifier": "for all texts whose exponent is below 2^16, however long, and all texts up to 65000 bytes, both float types, all ranges without NaN bounds, all NaN policies", "why_tests_cant": "The texts are unbounded and rounding decides near every bound and every midpoint between floats; the claim is about the exact decimal number, which no float test can express.", "anchors": ["validators-derive/src/validator_handlers/number/mod.rs"]}
{"id": "C78", "title": "Library-backed validators accept exactly what the library accepts", "statement": "A struct with an accepted regex attribute never panics on the generated unwrap, accepts exactly the texts its written expression matches and keeps them unchanged; a literal that is no regular expression is refused by the macro. url, semver and semver_req return the library's verdict, value and error. parse_string, parse_str and validate_str agree.", "quantifier": "for all attribute texts, all input texts, all behaviours of the regex, url and semver libraries", "why_tests_cant": "The generated code compiles the pattern again at run time and unwraps it; that this never fails depends on every pattern the macro lets through.", "anchors": ["validators-derive/src/validator_handlers/regex/mod.rs", "validators-derive/src/validator_handlers/url/mod.rs", "validators-derive/src/validator_handlers/semver/mod.rs", "validators-derive/src/validator_handlers/semver_req/mod.rs"]}
{"id": "C79", "title": "Query, form and path texts are read as parse_str reads them", "statement": "In an axum query, form or path, or a rocket form or path, a validated field is read exactly as parse_str reads the text, with the same error; a validators::Result field never makes the request fail. It is not true of json fields (the text is taken for a JSON string) nor of url, semver and semver_req fields (the read never returns).", "quantifier": "for all validators, all texts, all deserialisers that present every value as a text", "why_tests_cant": "The deserialisers decide what to present from the hint each impl gives; the claim covers every hint, every visitor and every text.", "anchors": ["validators/src/lib.rs", "validators-derive/src/validator_handlers/json/mod.rs", "validators-derive/src/validator_handlers/url/mod.rs", "validators/src/result/"]}
{"id": "C80", "title": "The size of decoded data is known from its text", "statement": "Decoded base32/base64 data is never empty, has at most 5/8 or 6/8 of the bytes of its text and at least one byte per block of 8 or 4; if the equals signs are all at the end the size is exactly the bits of the characters divided by 8, so a length validator around a decoded type accepts exactly the texts that decode and whose character count is in the corresponding bounds. With equals signs inside, two texts of the same length and ending decode to different sizes.", "quantifier": "for all texts, all padding policies, all three alphabets, all compiling length bounds", "why_tests_cant": "It is an arithmetic relation between the lengths of all texts and all decoded values; tests see single lengths.", "anchors": ["validators-derive/src/validator_handlers/base32_decoded/mod.rs", "validators-derive/src/validator_handlers/base64_decoded/mod.rs", "validators-derive/src/validator_handlers/base64_url_decoded/mod.rs", "validators-derive/src/validator_handlers/length/mod.rs", "validators/src/traits/collection_length.rs"]}
{"id": "C81", "title": "The printed form of a host denotes the host", "statement": "A host returned by a host or email validator, printed with Display, is read back by a host validator as the same host, and two hosts with the same printed form are equal; a name or IPv4 host followed by a colon and its port is read back with the port. It is not true of email domains that are bare dotted quads (kept as names, printed like the address), nor of IPv6 hosts followed by a port.", "quantifier": "for all texts, all policies, all IDNA behaviours satisfying the laws, all IPv4 and IPv6 addresses", "why_tests_cant": "Uniqueness compares every pair of hosts, and reading back covers all addresses and all names IDNA can produce.", "anchors": ["validators/src/models/host.rs", "validators-derive/src/validator_handlers/host/mod.rs", "validators-derive/src/validator_handlers/email/mod.rs"]}
{"id": "C82", "title": "Every range the derive macro accepts can be expanded", "statement": "If the attribute of an integer or number validator passes the macro's own checks, its bounds can be written as literals of the field type, so the expansion does not panic.", "quantifier": "every attribute text, every range shape, every number type", "why_tests_cant": "The repository has no test of a refused attribute, and the bounds range over all literals; whether a literal is representable depends on the field type.", "anchors": ["validators-derive/src/common/range_option.rs: From<RangeOption<T>> for RangeTokenStream", "validators-derive/src/common/number.rs", "validators-derive/src/validator_handlers/number/number_attribute.rs"]}
{"id": "C83", "title": "The description a deserialiser gives determines what it accepts", "statement": "Two validators of the same kind whose generated visitors describe what they expect with the same text (the `expecting` text that serde shows when a value has the wrong kind) accept the same texts.", "quantifier": "every pair of configurations of the validators whose description is built from the attribute, every input text", "why_tests_cant": "No test looks at the texts, and the claim is about all pairs of configurations: 81 domain configurations and unboundedly many ranges and lengths.", "anchors": ["validators-derive/src/validator_handlers/*/mod.rs: let expect = ..", "validators-derive/src/validator_handlers/domain/mod.rs:998-1067", "validators-derive/src/validator_handlers/email/mod.rs:1695-1734", "validators-derive/src/validator_handlers/text/mod.rs:781-803", "validators-derive/src/validator_handlers/byte/mod.rs:196-197"]}
{"id": "C84", "title": "The constants of the generated program are values of their types", "statement": "If #[derive(Validator)] accepts an attribute, the bounds it writes into the generated code (and the sums it forms from them) are values of their Rust types, so the generated code compiles on the machine that ran the macro; bounds of fixed-size integer types, of bit and of byte fit every target; and for isize and usize, when the constants fit the target, the generated range check decides about every value of the target's type exactly as one generated on the target.", "quantifier": "all attributes and structs accepted by the macro, all host and target pointer widths, all values", "why_tests_cant": "The repository's tests are compiled on one machine with small bounds; the claim is about every accepted bound up to the largest value of the type, and about cross-compilation, which no unit test can observe.", "anchors": ["validators-derive/src/common/number.rs:7-20", "validators-derive/src/common/range.rs:27-29", "validators-derive/src/validator_handlers/line/mod.rs:173", "validators-derive/src/validator_handlers/line/mod.rs:246", "validators-derive/src/validator_handlers/line/mod.rs:356", "validators-derive/src/validator_handlers/line/mod.rs:427", "validators-derive/src/validator_handlers/length/mod.rs:74-124", "validators-derive/src/validator_handlers/signed_integer/mod.rs:40-190"]}
{"id": "C85", "title": "Leaving out an argument means the documented default", "statement": "For every validator and every attribute, appending arguments that write the documented default of parameters the attribute leaves out (padding = Allow, ignore_case = true, ipv4/local/port/at_least_two_labels/comment/ip/non_ascii = Allow, case = Any, separator = Allow(':') or Allow('-'), nan = Allow, range = Unlimited) changes neither whether #[derive(Validator)] accepts the struct nor the code it generates.", "quantifier": "all validators, all attributes and lists of omitted parameters, all structs and feature sets", "why_tests_cant": "A test fixes one attribute; the claim ranges over every subset of the omitted parameters of every validator in the presence of arbitrary other arguments, in each of the forms in which a default can be written.", "anchors": ["validators/src/lib.rs:63-853", "validators-derive/src/common/attributes/base_xx_attribute.rs", "validators-derive/src/validator_handlers/domain/domain_attribute.rs", "validators-derive/src/validator_handlers/email/email_attribute.rs", "validators-derive/src/validator_handlers/mac_address/mac_address_attribute.rs", "validators-derive/src/validator_handlers/number/number_attribute.rs"]}
{"id": "C86", "title": "Every choice of Cargo features gives crates whose names resolve", "statement": "For every set of Cargo features requested of validators: every module, item and external crate that a compiled-in part of validators or validators-derive uses is itself compiled in; and the code #[derive(Validator)] generates for an enabled validator mentions only names that validators_prelude exports under those features (or std when std is enabled). Enabling more features never removes an exported name.", "quantifier": "all sets of requested features, all items of the two crates, all validators, all derive inputs", "why_tests_cant": "There are more than 2^35 feature sets; CI builds a handful of them, and a missing feature edge or cfg alternative shows only in the sets that omit the feature that happens to bring the name in.", "anchors": ["validators/Cargo.toml", "validators-derive/Cargo.toml", "validators/src/lib.rs:935-1028", "validators/src/errors/mod.rs", "validators/src/traits/mod.rs", "validators-derive/src/validator_handlers/json/mod.rs:219"]}
{"id": "C87", "title": "The derived type implements the documented traits", "statement": "For every validator, the traits listed under Traits in its documentation are exactly the public traits that #[derive(Validator)] implements for the struct, each once, and under the features that make the derive available those traits are exported so that their methods can be called.", "quantifier": "all validators, all derive inputs, all feature sets", "why_tests_cant": "Tests call the methods that exist; they cannot show a documented trait is missing for some validator or an undocumented one present, nor that the trait is importable under every feature set.", "anchors": ["validators/src/lib.rs:58-789", "validators/src/traits/mod.rs", "validators-derive/src/validator_handlers/length/mod.rs", "validators-derive/src/validator_handlers/line/mod.rs", "validators-derive/src/validator_handlers/text/mod.rs", "validators-derive/src/validator_handlers/json/mod.rs"]}
{"id": "C88", "title": "The error message (and the axum response) says which rule was broken", "statement": "Whenever a validator refuses an input, the Display text of the error - the body of the 400 response that axum sends - either names a parameter of the attribute together with its actual value (\"must be local\" means local = Must, \"port not allowed\" means port = Disallow, and so on, the same words for every validator), or no setting of those parameters would have accepted the input. For integers each message says which bound was crossed. Within one error type different errors never have the same text, so equal responses mean equal reasons.", "quantifier": "all inputs, all attribute values, all validators with policies, all errors", "why_tests_cant": "Tests compare one message for one input; that no input under any attribute gets words that blame another parameter, and that texts never coincide, is a claim over all inputs and configurations.", "anchors": ["validators/src/errors/domain.rs:26-41", "validators/src/errors/email.rs:24-38", "validators/src/errors/host.rs:22-35", "validators/src/errors/ip.rs:18-29", "validators/src/errors/signed_integer.rs:22-32", "validators/src/errors/axum_traits.rs:10-62"]}
{"id": "C89", "title": "A compile error of the derive macro names a fault that is there, and what it offers is accepted", "statement": "If an attribute is refused, the attribute has the fault the error asserts: an unknown parameter is one the validator does not have, a repeated one is given twice, a missing feature is switched off and was asked for, two policies that cannot be used together are both written, a missing regex is not written. The lines below \"available validators:\" and \"available parameters:\" are exactly the names that are understood there (with the features that are on), for ranges and lengths too, and the words in \"expected Must/Allow/Disallow\" and the like are exactly the words that are accepted, in each form the message shows.", "quantifier": "all attributes (every syntax the macro can receive), all structs, all validators, all feature sets, all external functions", "why_tests_cant": "The lists in the messages are kept by hand beside the match arms of seventeen parsers, and a test compiles one wrong attribute; that no attribute gets a wrong reason, and that each list equals the set of accepted names, is a claim over all attributes and features.", "anchors": ["validators-derive/src/panic.rs:11-106", "validators-derive/src/supported_validators.rs:40-180", "validators-derive/src/common/attributes/utf8_attribute.rs:18-106", "validators-derive/src/common/tri_allow.rs:44-82", "validators-derive/src/common/flag_options.rs:8-90", "validators-derive/src/validator_handlers/domain/mod.rs:131-140", "validators-derive/src/validator_handlers/regex/regex_attribute.rs:98-108"]}
{"id": "C90", "title": "An accepted integer range generates a check that names the number it checks", "statement": "Whenever #[derive(Validator)] accepts a signed_integer or unsigned_integer declaration, every variable that the generated range check reads is the parameter of the function it stands in, so the declaration compiles and the validator can be used.", "quantifier": "all derive inputs that the macro accepts as signed_integer or unsigned_integer: every range option, every field type, both pointer widths", "why_tests_cant": "Each shape of the range has its own fragment of generated code, compiled only if some test declares that shape; the project's unsigned tests use Outside(0, 0) and Outside(0, 1, exclusive), which collapse to the one-value fragment, so the two-bound fragment is never compiled.", "anchors": ["validators-derive/src/validator_handlers/unsigned_integer/mod.rs:141-155", "validators-derive/src/validator_handlers/unsigned_integer/mod.rs:204", "validators-derive/src/validator_handlers/signed_integer/mod.rs:80-183"]}
{"id": "C91", "title": "Values come back from binary formats that store integers by value", "statement": "A value that a signed_integer, unsigned_integer, byte or boolean validator accepts is read back by the validator, and by validators::Result of it, from a binary format that stores integers by value (CBOR, MessagePack): the format presents a non-negative integer as unsigned and a negative one as signed, with any width that holds it.", "quantifier": "all accepted values, all ranges and field types, both pointer widths, every width the format may choose, every byte_unit parser and largest size", "why_tests_cant": "The project's tests only use serde_json; which Visitor method a format calls depends on the format and on the magnitude of the value, so a test of one format or one value says nothing of the others.", "anchors": ["validators-derive/src/validator_handlers/byte/mod.rs:206-236", "validators-derive/src/validator_handlers/signed_integer/mod.rs:588-646", "validators-derive/src/validator_handlers/unsigned_integer/mod.rs:571-629", "validators/src/result/serde_traits.rs:456-474"]}
{"id": "C92", "title": "Values come back from binary formats that store no types", "statement": "A value that a validator accepts, written by its Serialize impl to a binary format that stores no types (bincode, postcard: the format reads whatever the Deserialize impl asks for), is read back by its Deserialize impl, exactly as it would be from JSON.", "quantifier": "all validators with a visitor, all parse methods they may have, all values, every reading of bytes that were written as something else", "why_tests_cant": "The project's tests only use serde_json, which accepts deserialize_any; which request an impl makes is invisible in a self-describing format, so no amount of JSON testing shows it.", "anchors": ["validators-derive/src/validator_handlers/boolean/mod.rs:396", "validators-derive/src/validator_handlers/domain/mod.rs:1101", "validators-derive/src/validator_handlers/unsigned_integer/mod.rs:629", "validators-derive/src/validator_handlers/byte/mod.rs:229-233", "validators/src/result/serde_traits.rs"]}
{"id": "C93", "title": "Generated code does not depend on what else is called what", "statement": "The code that a validator generates means the same whatever the struct is called and whatever other items its module declares: every name in it stands for the struct, for the types that the user wrote, or for what the crate and the standard library provide, and never for an unrelated item of the module or for a local item of the generated code itself.", "quantifier": "all validators, all features and serde/rocket options, all struct names, all sets of item names in the module, all names in the type of the field", "why_tests_cant": "Each test module declares one struct with an unremarkable name; whether some other name collides is a statement about all names and all 31 handlers.", "anchors": ["validators-derive/src/validator_handlers/base32/mod.rs:142-272", "validators-derive/src/validator_handlers/length/mod.rs:176-189", "validators-derive/src/validator_handlers/email/mod.rs:740", "validators-derive/src/common/rocket.rs:5-32"]}
{"id": "C94", "title": "An accepted email has at most 255 octets behind the @", "statement": "The part of an accepted email address that follows the @ has at most 255 octets with its comments, both in the text that was given and in the text that to_email_string prints for the value.", "quantifier": "every string, all policies, every IDNA function", "why_tests_cant": "The host is printed in canonical form, which can be longer or shorter than what was written, so the limit has to be checked on a text that is not there; only particular addresses at the limit tell the two apart.", "anchors": ["validators-derive/src/validator_handlers/email/mod.rs: v_parse_str", "validators-derive/src/validator_handlers/email/mod.rs: ToEmailString"]}
{"id": "C95", "title": "Two builds of the same source give the same phone validator", "statement": "Compiling the same phone struct twice gives validators that accept the same texts with the same numbers for the same countries, refuse the others with the same error, and describe themselves to a deserialiser with the same text.", "quantifier": "every list of countries, every order in which the macro iterates over them, every string, every phone number library", "why_tests_cant": "The order comes from a hash set with a random seed drawn when the macro runs; a test suite is compiled once and sees one order.", "anchors": ["validators-derive/src/validator_handlers/phone/mod.rs: phone_handler", "validators-derive/src/validator_handlers/phone/mod.rs: expecting"]}
{"id": "C96", "title": "Deserialising never panics, whatever the format presents", "statement": "Deserialising a validator, or a validators::Result of one, returns a value or an error and never panics, whichever visitor method the format calls and with whatever value; serialising never panics either.", "quantifier": "every validator with a serde impl, every attribute that compiles, every format, human readable or not, every value of every serde kind, every external library", "why_tests_cant": "Each visitor has a method for many kinds of values, with serde's defaults in between, and tests use one format with well-formed input; hostile input is unbounded.", "anchors": ["validators-derive/src/validator_handlers/*/mod.rs: MyVisitor", "validators/src/result/serde_traits.rs", "validators-derive/src/validator_handlers/json/mod.rs: ToJsonString"]}
{"id": "C97", "title": "The constants that feature `test` adds describe what the struct accepts", "statement": "Read as the repository's own tests read them, the V_ constants of a derived struct decide what it accepts: check_range(i, V_RANGE) is true exactly of the numbers accepted, V_X.allow() holds of every accepted text that has the feature X and V_X.must() of none that lacks it, and the length constants are the bounds enforced. The constants are what the attribute says, and two structs of the same validator with the same constants behave the same, except for regex, which has none.", "quantifier": "every validator but regex, every attribute that is accepted and whose code compiles, every input, every behaviour of the external crates (for host and domain: that maps no other text to an IPv4 address; for mac_address and uuid: separators that are not hexadecimal digits)", "why_tests_cant": "The tests use the constants as the oracle, for a few texts and attributes; whether the oracle itself agrees with the validator for all of them is outside their reach.", "anchors": ["validators-derive/src/common/test.rs", "validators/src/test/tri_allow.rs", "validators/src/test/separator_option.rs", "validators/src/test/range_option.rs", "validators-derive/src/validator_handlers/*/mod.rs: cfg(feature = \"test\")"]}
{"id": "C98", "title": "Loosening the bounds of an attribute never refuses what was accepted", "statement": "If a range, a length, the case, the separator or the list of countries of an attribute is replaced by a more permissive one, everything that was accepted is still accepted, with the same value.", "quantifier": "every pair of attributes one of which is visibly looser, every input through every entry point, every behaviour of the external libraries", "why_tests_cant": "It relates two validators over all inputs; tests check one attribute at a time.", "anchors": ["validators-derive/src/validator_handlers/{signed_integer,unsigned_integer,number,bit,byte}/mod.rs: handle_range", "validators-derive/src/validator_handlers/{line,text,length}/mod.rs", "validators-derive/src/validator_handlers/{mac_address,uuid}/mod.rs", "validators-derive/src/validator_handlers/phone/mod.rs"]}
{"id": "C99", "title": "The same source gives the same validator on 16-, 32- and 64-bit machines", "statement": "A declaration whose field is not an isize or usize is accepted by the derive macro with the same meaning on machines of every pointer width, and the generated integer, boolean and json entry points answer every text and every number in the same way. For isize and usize the narrower machine accepts exactly what the wider one accepts among the numbers that it has.", "quantifier": "every declaration, every pair of pointer widths, every text, every number through every entry point", "why_tests_cant": "Tests run on one machine; the entry points for isize and usize have a body per pointer width, of which a test run compiles one.", "anchors": ["validators/src/traits/validate_signed_integer.rs: parse_isize", "validators/src/traits/validate_unsigned_integer.rs: parse_usize", "validators-derive/src/validator_handlers/{signed_integer,unsigned_integer}/mod.rs", "validators-derive/src/common/number.rs: base10_parse"]}
{"id": "C100", "title": "Letter case does not matter where it is not asked about", "statement": "Two texts that differ only in the case of ASCII letters are treated alike by the validators for IP addresses, domains, hosts, numbers, booleans, URLs, MAC addresses and UUIDs with case(Any), and e-mail addresses: both are accepted with the same value, or both are refused with the same error. What an e-mail address keeps as written (local part, comments) agrees up to case. For names this rests on the crate idna, and for URLs on the crate url, not looking at case.", "quantifier": "every pair of texts that agree up to ASCII case, every policy of every attribute", "why_tests_cant": "There are exponentially many spellings of each text, and the comparisons with fixed letters are spread over all parsers.", "anchors": ["validators-derive/src/validator_handlers/{ip,ipv4,ipv6,domain,host,email}/mod.rs: v_parse_str", "validators-derive/src/validator_handlers/{mac_address,uuid}/mod.rs: handle_decode, handle_check", "validators-derive/src/validator_handlers/{http_url,http_ftp_url}/mod.rs: v_parse_str", "validators-derive/src/validator_handlers/email/mod.rs: handle_ip"]}
{"id": "C101", "title": "An accepted text cannot break out of its line", "statement": "Integers, numbers, boolean words, base32 and base64 texts, MAC addresses, uuids, ip addresses, domains, hosts and e-mail addresses are accepted only if there is no line break or other ASCII control character in the text (except a tab in a quoted local part), and neither is there one in the text that the value prints or serialises to.", "quantifier": "every configuration, every text, every library function for internationalised names that refuses control characters", "why_tests_cant": "Tests try a few texts with a stray line break; that no position of any accepted text can hold one needs a proof over all texts. It is what makes it safe to put a validated value in a mail header, a log or an HTTP header.", "anchors": ["validators-derive/src/validator_handlers/email/mod.rs: v_parse_str, to_email_string", "validators-derive/src/validator_handlers/{domain,host,ip,ipv4,ipv6}/mod.rs", "validators-derive/src/validator_handlers/{signed_integer,unsigned_integer,number,boolean}/mod.rs", "validators-derive/src/validator_handlers/{base32,base64,base64_url,base32_decoded,base64_decoded,mac_address,uuid}/mod.rs"]}
{"id": "C102", "title": "Values that differ print differently", "statement": "If two values that a validator has returned print (and serialise to) the same text, they are the same value, with the same comments, ports and flags; so the text can be used as a key or stored in place of the value.", "quantifier": "every configuration, every pair of accepted texts, every library function for internationalised names with the documented laws", "why_tests_cant": "It relates every pair of accepted texts; tests print a few values.", "anchors": ["validators-derive/src/validator_handlers/{mac_address,uuid}/mod.rs: to_mac_address_string, to_uuid_string", "validators-derive/src/validator_handlers/{ip,ipv4,ipv6,domain,host}/mod.rs: to_uri_authority_string", "validators-derive/src/validator_handlers/email/mod.rs: to_email_string"]}
{"id": "C103", "title": "Policies act independently of each other", "statement": "A text passes a combination of policies iff it passes each of them with the others left open: port and locality of an address; IPv4, locality, port and two labels of a domain or host; comments, literal addresses, locality, two labels and non-ASCII local parts of an e-mail address; the range and the NaN policy of a number; both bounds of a range or of a length; letter case and separator of an identifier.", "quantifier": "every combination of policies, every text (number), every library function for internationalised names that accepts dotted IPv4 addresses", "why_tests_cant": "There are hundreds of combinations for each text; the branches of the generated code are written per combination, and tests visit only some of them.", "anchors": ["validators-derive/src/validator_handlers/{ip,ipv4,ipv6,domain,host,email}/mod.rs: v_parse_str (code generated from the policies)", "validators-derive/src/validator_handlers/{signed_integer,unsigned_integer,number}/mod.rs: v_parse_*", "validators-derive/src/validator_handlers/{mac_address,uuid,line,text}/mod.rs: v_parse_str"]}
{"id": "C104", "title": "Printed forms have a known greatest width", "statement": "What a validator prints or serialises fits a column of fixed width: 21 octets for an IPv4 address with its port and 47 for an IPv6 address (15 and 41 without), 12 and 32 for MAC addresses and UUIDs without separators (17 and 36 with), 260 for a host, 259 for a domain, 320 for an e-mail address; and texts of addresses without port and of identifiers have fixed widths too.", "quantifier": "every configuration, every accepted text, every library function for internationalised names that verifies DNS lengths", "why_tests_cant": "It bounds the output for unboundedly many inputs; the widest cases (longest digits, leading zeros, canonical forms longer than the text) are not the ones that tests pick.", "anchors": ["validators-derive/src/validator_handlers/{ip,ipv4,ipv6,domain,host}/mod.rs: to_uri_authority_string", "validators-derive/src/validator_handlers/{mac_address,uuid}/mod.rs: to_mac_address_string, to_uuid_string", "validators-derive/src/validator_handlers/email/mod.rs: to_email_string"]}
{"id": "C105", "title": "Past its limit a text is refused, whatever comes after", "statement": "Once a text has more characters (bytes) than the greatest length of a line or text validator, more than 320 bytes for an e-mail address, 17 for a MAC address, 36 for a uuid or 5 for a boolean word, it is refused with an error that what follows cannot change; so a validator with a limit need not read an over-long text to its end.", "quantifier": "every length attribute, every text, every continuation of it", "why_tests_cant": "It compares the verdicts on all the infinitely many continuations of every prefix; tests try a few over-long texts, and for those the error happens to be TooLong.", "anchors": ["validators-derive/src/validator_handlers/{line,text}/mod.rs: handle_str", "validators-derive/src/validator_handlers/{email,mac_address,uuid,boolean}/mod.rs: v_parse_str"]}
{"id": "C106", "title": "The authority string is an authority of a URI", "statement": "to_uri_authority_string of an ip, domain or host value is an authority as RFC 3986 defines it (a bracketed IPv6 address, a dotted address or a name, and a port of digits if there is one) that shows the value's host and port and nothing else: no user information and no character that ends an authority, so that the URI built from it has this host and port and no other reading.", "quantifier": "every policy, every accepted text, every library function for internationalised names that satisfies the laws, everything that may follow an authority in a URI", "why_tests_cant": "A grammar is about every printed text; tests compare a few printed texts with expected ones.", "anchors": ["validators-derive/src/validator_handlers/{ip,ipv4,ipv6,domain,host}/mod.rs: to_uri_authority_string", "validators/src/traits/to_uri_authority_string.rs"]}
{"id": "C107", "title": "Functions of the user's own do not change the generated code", "statement": "Whatever inherent functions a struct has beside the derive, either the program does not compile or every trait method that the derive writes does what it does without them: the parse and validate methods of the other integer and number types, to_uri_authority_string and serde call the crate's functions and not the user's.", "quantifier": "every validator, field type, width of pointers and port policy; every set of inherent functions of the user's, and every function as the body of each; every value", "why_tests_cant": "No test struct defines a function whose name a trait of the crate has too; the calls that can be hijacked look the same as those that cannot.", "anchors": ["validators-derive/src/validator_handlers/*/mod.rs: Self::v_*, Self::parse_*, Self::validate_*, self.get_domain_non_fully_qualified()", "validators-derive/src/common/rocket.rs"]}
{"id": "C108", "title": "The printed e-mail address is a mailbox of SMTP", "statement": "to_email_string of an accepted address without comments is a Mailbox as RFC 5321 (with RFC 6531 if non_ascii is allowed) defines it, whose local part and domain are those of the value; such a text has no other local part or domain, and written between angle brackets it ends where it should whatever its quotes hold.", "quantifier": "every policy, build profile and accepted text; every library function for internationalised names that satisfies the laws; everything that may follow the closing bracket", "why_tests_cant": "A grammar is about every printed text, with every order of escapes, quotes and dots; the tests compare a few ordinary addresses.", "anchors": ["validators-derive/src/validator_handlers/email/mod.rs: to_email_string", "validators-derive/src/validator_handlers/email/mod.rs: v_parse_str (quoted local part)"]}
{"id": "C109", "title": "The arithmetic of the generated code does not overflow", "statement": "Every sum, difference and cast the generated code of the base32/base64, decoded, mac_address, uuid, ip, ipv4, ipv6, domain, host, line, text and email validators performs on usize, isize and u8 has the value it has on unbounded integers, so that a debug build (which panics on overflow) and a release build (which wraps) give the same result, on machines of 16, 32 and 64 bits alike.", "quantifier": "every policy, length, separator and case option; every text or byte slice that fits into memory (at most isize::MAX bytes); both build profiles and the three widths of pointers; every library function for internationalised names that returns a String", "why_tests_cant": "The tests run in one profile on one machine, with short texts; an overflow depends on the profile, the width and where in the text a character stands.", "anchors": ["validators-derive/src/validator_handlers/email/mod.rs: v_parse_str, handle_comment_1 to handle_comment_4, handle_ip, handle_domain", "validators-derive/src/validator_handlers/line/mod.rs: handle_str", "validators-derive/src/validator_handlers/base64/mod.rs: v_parse_u8_slice", "validators-derive/src/validator_handlers/mac_address/mod.rs: handle_iter", "validators-derive/src/validator_handlers/host/mod.rs: handle_ipv6_with_port"]}
{"id": "C110", "title": "The ways of writing one attribute are interchangeable", "statement": "Writing a parameter as `name = value` or as `name(value)`, a negative number in either form, a literal supplied by a macro_rules macro, a range expression after `=` or in parentheses, leaving out empty parentheses, adding a final comma to a parameter list or reordering the parameters does not change the validator that the derive macro generates, nor whether it accepts the attribute; and a range written in words (min, max, inclusive) is the range written as a Rust range expression.", "quantifier": "every validator, every struct, every combination of cargo features, every attribute and any number of respellings at any depth, all literals", "why_tests_cant": "Quantifies over all pairs of equivalent attribute syntaxes; a value form that one reader accepts and another ignores is found only by comparing them, and compile-time refusals are not exercised by the runtime tests.", "anchors": ["validators-derive/src/common/number.rs: expr_2_number, meta_2_number", "validators-derive/src/common/boolean.rs: meta_2_bool", "validators-derive/src/common/range.rs: Range::from_meta, Range::from_expr_range", "validators-derive/src/common/separator_option.rs", "validators-derive/src/common/flag_options.rs", "validators-derive/src/lib.rs: derive_input_handler"]}
{"id": "C111", "title": "What the standards call valid is accepted", "statement": "The ip validators accept every IPv4 and IPv6 address of RFC 3986 and (apart from the brackets) nothing else; host and domain accept every host name of RFC 1123 with the sizes of DNS, with or without a port of digits, whenever their policies admit it, and return the name in lower case and the port as a number; mac_address and uuid accept exactly the forms of RFC 7042 and RFC 4122 with their value; number accepts every number of RFC 8259 with the nearest float; email accepts every SMTP mailbox (RFC 5321, RFC 6531) within the size limits, with the local part and host as written.", "quantifier": "every text of each grammar, all configurations whose policies admit it, every idna library that lower-cases host names", "why_tests_cant": "Each grammar has infinitely many (or astronomically many) sentences; a refused corner of the grammar, such as one of the nine forms of IPv6, shows only in a proof over all of them.", "anchors": ["validators-derive/src/validator_handlers/ipv4/mod.rs", "validators-derive/src/validator_handlers/ipv6/mod.rs", "validators-derive/src/validator_handlers/host/mod.rs", "validators-derive/src/validator_handlers/domain/mod.rs", "validators-derive/src/validator_handlers/mac_address/mod.rs", "validators-derive/src/validator_handlers/uuid/mod.rs", "validators-derive/src/validator_handlers/number/mod.rs", "validators-derive/src/validator_handlers/email/mod.rs"]}
{"id": "C112", "title": "local(Disallow) keeps local machines out, however the host is written", "statement": "If a text is accepted under local(Disallow), then no resolver reads its host as a local address: neither the address it denotes nor the address that inet_aton (the reading of the system's resolver: one to four numbers, decimal, octal or hexadecimal) makes of it lies in a local block, and it is not localhost nor a name below localhost (RFC 6761).", "quantifier": "every text, every validator with a local policy (ip, host, domain, email, http_url, http_ftp_url), every configuration, every idna and url library with the stated law", "why_tests_cant": "An address has unboundedly many spellings; a test lists a few of them, and a server-side request forgery needs one that nobody listed.", "anchors": ["validators/src/functions/ipv4.rs: is_local_ipv4", "validators/src/functions/domain.rs: is_local_domain", "validators-derive/src/validator_handlers/host/mod.rs", "validators-derive/src/validator_handlers/domain/mod.rs", "validators-derive/src/validator_handlers/email/mod.rs", "validators-derive/src/validator_handlers/ip/mod.rs", "validators-derive/src/validator_handlers/http_url/mod.rs"]}
{"id": "C113", "title": "The derive macro does not panic", "statement": "Whatever is written in the attributes and whatever the item is, #[derive(Validator)] ends with generated code or with a compile error that points at the source; it never panics (which rustc reports as 'proc-macro derive panicked', without a place).", "quantifier": "every list of attributes, every struct, enum or union of Rust's grammar, every validator, every set of features, every behaviour of the regex, phonenumber and float parsers", "why_tests_cant": "The macro unwraps names and types of fields, bounds of ranges and literals; whether one of them is missing depends on combinations of an attribute and a struct, of which tests (trybuild or not) run a handful.", "anchors": ["validators-derive/src/lib.rs: derive_input_handler", "validators-derive/src/common/range_option.rs: From<RangeOption<T>> for RangeTokenStream", "validators-derive/src/validator_handlers/number/number_attribute.rs", "validators-derive/src/validator_handlers/bit/mod.rs", "validators-derive/src/validator_handlers/phone/mod.rs", "validators-derive/src/validator_handlers/*/mod.rs: the checks of the struct"]}
{"id": "C114", "title": "local(Disallow) divides the addresses by whether they can be reached from everywhere", "statement": "An address that the IANA special-purpose registries call globally reachable is accepted under local(Disallow); an address accepted under local(Disallow) is globally reachable, and so is the IPv4 address that a translator or 6to4 router would take it for.", "quantifier": "all 2^32 IPv4 and 2^128 IPv6 addresses in every accepted spelling, every port policy; ip, ipv4, ipv6, host, domain, email, http_url", "why_tests_cant": "The claim is about every address of 2^128; the code's list of blocks and the registry's differ at boundaries and in blocks that a test author who works from the code's list does not think of.", "anchors": ["validators/src/functions/ipv4.rs: is_local_ipv4", "validators/src/functions/ipv6.rs: is_local_ipv6", "validators-derive/src/validator_handlers/ip/mod.rs", "validators-derive/src/validator_handlers/host/mod.rs"]}
{"id": "C115", "title": "An accepted text can be pasted between quotes", "statement": "Integers, numbers, boolean words, base32 and base64 texts, MAC addresses and uuids (with such a separator), ip addresses, domains, hosts and e-mail addresses are accepted only if every ASCII character of the text is a letter, a digit or one of + - . / : = [ ] _, and so is every character of the text that the value prints: there is no quote, angle bracket, ampersand, dollar sign, backslash, semicolon or space with which the text could end a string, start markup or run a command.", "quantifier": "every configuration, every text, every library function for internationalised names that only takes letters, digits, hyphens and dots from ASCII", "why_tests_cant": "Tests try a few texts with a bad character at some place; that no accepted text has one at any place needs a proof over all texts. It is what a user relies on who puts a validated value in a page, a query or a command.", "anchors": ["validators-derive/src/validator_handlers/email/mod.rs: v_parse_str, to_email_string", "validators-derive/src/validator_handlers/{domain,host,ip,ipv4,ipv6}/mod.rs", "validators-derive/src/validator_handlers/{signed_integer,unsigned_integer,number,boolean}/mod.rs", "validators-derive/src/validator_handlers/{base32,base64,base64_url,base32_decoded,base64_decoded,mac_address,uuid}/mod.rs"]}
{"id": "C116", "title": "A validator returns exactly the errors its attribute provides for", "statement": "For every configuration, the set of errors that parse can return is the one the attribute describes: Invalid, and a Must or Disallow error exactly for each policy set to Must or Disallow (ip addresses, hosts, domains, e-mail addresses, base encodings, MAC addresses, uuids); too small, too large or forbidden exactly if the range leaves out such a value of the type (integers, numbers); a length error exactly if a length is given that some text violates (collections, line, text). No other error needs handling, and none of these is dead.", "quantifier": "every configuration, every error; over all texts for 'never', a text for each configuration for 'sometimes'", "why_tests_cant": "That an error is never returned is a statement over all texts, and the configurations are unbounded (ranges and lengths) or many (three policies to the fourth for a domain). A user relies on it when matching on the error: arms that cannot occur are left out, those that can are shown to people.", "anchors": ["validators-derive/src/validator_handlers/{ip,ipv4,ipv6,host,domain,email}/mod.rs: v_parse_str", "validators-derive/src/validator_handlers/{base32,base64,base64_url,base64_decoded,mac_address,uuid}/mod.rs", "validators-derive/src/validator_handlers/{signed_integer,unsigned_integer,number,length,line,text}/mod.rs", "validators/src/errors/*.rs"]}
{"id": "C117", "title": "The values of a validator type are those its attribute describes, whichever impl made them", "statement": "A value of a validator type that any generated impl returns (the parse methods for str, String, byte slices, integers, floats, bool, char and JSON values, Deserialize of the type, From, FromStr and Deserialize of validators::Result, and the impls for rocket parameters and forms) satisfies the attribute: an integer or number lies in the type and the range (NaN as allowed), a size within its bounds, a collection, line or text has the lengths given, a regex value matches, a base text has the shape and padding, an address, host, domain or e-mail address keeps its port, local, IP, two-label and comment policies. For integers, numbers, lines, base texts, MAC addresses, uuids, ip addresses, regexes, collections and URLs the values are exactly the ones described: every such value is made by some impl.", "quantifier": "every configuration, every value, every impl and every argument of it, every deserialiser input", "why_tests_cant": "It is an invariant of a type: one impl of the seventeen that skips the check for one argument breaks it, and the converse asks for an input for every described value. Tests call the impls on chosen inputs, and code that receives a value of the type relies on the invariant without knowing where it came from.", "anchors": ["validators-derive/src/validator_handlers/*/mod.rs: v_parse_*, impls of Validate*, Deserialize, FromParam, FromFormField", "validators/src/result/mod.rs, serde_traits.rs, rocket_traits.rs", "validators/src/traits/validate_*.rs"]}
{"id": "C118", "title": "The bounds of a length validator hold of the collection and of what was sent", "statement": "When a struct deriving the length validator is deserialised, the elements that the format presents are accepted exactly if the collection they make is within the bounds: all of them are counted for a Vec or BinaryHeap, each different element once for a set, each different key once for a map (which keeps the last value). So a least length cannot be met by repeating an element of a set, the order of the elements never matters for the verdict, and is_empty is what min = 1 refuses. A greatest length limits the number of elements in the input.", "quantifier": "every sequence of elements, every element type with an equality, all seven collection types, every accepted attribute", "why_tests_cant": "Sequences have any length and repeat elements in any pattern, and the element type is arbitrary; a test fixes a handful. A user sets max to bound what a client may send, which is a claim over all inputs.", "anchors": ["validators/src/traits/collection_length.rs:13-71", "validators-derive/src/validator_handlers/length/mod.rs:74-189", "validators/src/result/serde_traits.rs:735-745"]}
{"id": "C119", "title": "An accepted mailbox is read as SMTP reads it", "statement": "If a text is a Mailbox of RFC 5321 (a dot-string or quoted string, @, and a domain or address literal) and an email validator accepts it, then the returned local_part is that of the mailbox (its text without the quotes), the returned domain_part is that of the mailbox, and there are no comments. So the domain that is checked against a policy or a list is the domain to which mail is sent.", "quantifier": "every RFC 5321 mailbox text, every configuration, both build profiles, every IDNA behaviour that takes no quotation mark in a name", "why_tests_cant": "It compares two readings of every text; where they part depends on an escape and on what stands anywhere behind it. Tests check single addresses against expected parts.", "anchors": ["validators-derive/src/validator_handlers/email/mod.rs:1003-1130 (quoted local part), 960-987 (comment after the domain)", "validators-derive/src/validator_handlers/email/mod.rs: v_parse_str"]}
{"id": "C120", "title": "Two spellings of one thing give one value", "statement": "If two accepted texts denote the same integer, number, MAC address, uuid, encoded data, IP address and port, host and port, domain, or mailbox (RFC 5321: quotes and the backslashes of quoted pairs are not part of it), the parsed values are equal, so that values can be used as keys, for instance to have one account per mailbox; and two mailboxes never share a value.", "quantifier": "every two texts, every configuration, every IDNA behaviour that takes no bracket or colon in a name", "why_tests_cant": "It relates every two texts of one meaning: leading zeros, plus signs, exponents, compressed addresses, letter case, padding, quotes and escapes in any combination. Tests compare a few pairs.", "anchors": ["validators-derive/src/validator_handlers/{signed_integer,unsigned_integer,number,mac_address,uuid,base32,base64,base64_url,ip,host,domain}/mod.rs: v_parse_str", "validators-derive/src/validator_handlers/email/mod.rs:1003-1130, 1289-1497", "validators-derive/src/validator_handlers/domain/mod.rs: v_parse_str"]}
{"id": "C121", "title": "An accepted address with comments is read as RFC 5322 reads it", "statement": "If a text is an address of RFC 5322 with a comment before or after the local part or the domain, and the e-mail validator accepts it, then the local part, the domain and the four comments of the value are those of the address, so that a check on the domain of the value is a check on the domain that mail goes to.", "quantifier": "every text that is an address of RFC 5322 with at most one comment in each place, every configuration, every IDNA behaviour", "why_tests_cant": "It ranges over every address and every content of the comments, which can hold parentheses, backslashes, at signs and further addresses; tests try comments of a few letters.", "anchors": ["validators-derive/src/validator_handlers/email/mod.rs:837-1140 (comments and local part), 1289-1497 (domain and trailing comments)"]}
{"id": "C122", "title": "The answer to a refused request repeats nothing of the request", "statement": "The axum response for a refused input has status 400 and a body that is one line of at most 50 printable ASCII characters without quotes, angle brackets, ampersands or backslashes, taken from a fixed list of at most nine lines per validator: whatever is sent, nothing of it comes back, so the body can be logged or shown as it is. The only other texts are those of a library whose error is wrapped, which are passed on as they are.", "quantifier": "every input, every configuration, every behaviour of the libraries", "why_tests_cant": "It is a statement about what no input can do to the response; a test shows the response to the inputs it sends.", "anchors": ["validators/src/errors/axum_traits.rs:10-62", "validators/src/errors/*.rs: Display"]}
{"id": "C123", "title": "A library is asked about one piece of the text, and that piece is short", "statement": "The domain, host and e-mail validators learn nothing from the IDNA library but its answer to one piece of the text (the name in front of the port; the name behind the @ and its comment), an address or a text refused for its form is refused without asking, and the piece is short, so that hostile input cannot keep the library busy; the other validators ask their library about the whole text, phone once for each country of the attribute.", "quantifier": "every text, every configuration, every two behaviours of the library that agree on that piece", "why_tests_cant": "It says that the outcome does not depend on anything else the library would say; a test runs with one library.", "anchors": ["validators-derive/src/validator_handlers/domain/mod.rs:585-742", "validators-derive/src/validator_handlers/host/mod.rs:466-558", "validators-derive/src/validator_handlers/email/mod.rs:779-853, 992-1286", "validators-derive/src/validator_handlers/phone/mod.rs:53-121"]}
{"id": "C124", "title": "An accepted line is one line for programs that know Unicode", "statement": "A value of a line validator contains no character that ends a line (UAX #14: LF, VT, FF, CR, NEL, LS, PS), no control character other than the tab and no character that changes the order in which text is shown; a text may have line ends but no other control characters; the local part of an address whose validator disallows non-ASCII is printable.", "quantifier": "every line, text and address, every attribute; every place and every character that is put there", "why_tests_cant": "The claim is about every character at every place of every accepted text; tests list a few ASCII controls.", "anchors": ["validators-derive/src/validator_handlers/line/mod.rs: handle_str", "validators-derive/src/validator_handlers/text/mod.rs: handle_str", "validators-derive/src/validator_handlers/email/mod.rs:779-853"]}
{"id": "C125", "title": "A refusal for the type of a value tells the kind of validator and does not ask for what was given", "statement": "When a deserialiser refuses a value because of its type, the error says what was expected (Visitor::expecting). This description tells which kind of validator refused, whatever its attribute; validators::Result of the type describes itself in the same words; and a value of a type that the description asks for (a text; data for base validators; a boolean, 0 or 1; a positive integer; a signed or unsigned integer; a number) is never refused for its type.", "quantifier": "every validator with a description, every attribute, every two of them, every JSON document and every value of a self-describing format, every behaviour of the parse methods", "why_tests_cant": "Descriptions are generated from the attribute and compared pairwise over infinitely many attributes, and the claim on values is about every type of value a format can present; the tests of the crate look at no description.", "anchors": ["validators-derive/src/validator_handlers/*/mod.rs: expecting", "validators/src/result/serde_traits.rs: expecting", "validators-derive/src/validator_handlers/number/mod.rs:391-441", "validators-derive/src/validator_handlers/signed_integer/mod.rs:579-649", "validators-derive/src/validator_handlers/byte/mod.rs:196-232"]}
{"id": "C126", "title": "An accepted text is not taken for an option of a command", "statement": "A text that a typed validator accepts, and the text that the value gives back (uri authority of ip, ipv4, ipv6, domain and host; e-mail string of email), does not begin with a hyphen, so that it can be passed on as an argument of a program without being read as an option. The only exceptions are the ones a user expects: negative numbers (and minus zero, or NaN with a sign).", "quantifier": "every attribute, every text; for domain and host every behaviour of the IDNA library that keeps the rule check_hyphens asks for; for http urls every behaviour of the url library", "why_tests_cant": "The claim is about the first character of all accepted texts under every attribute; a test can only try some of them, and the tests of the crate have no text that begins with a hyphen apart from negative numbers.", "anchors": ["validators-derive/src/validator_handlers/email/mod.rs: v_parse_str, to_email_string", "validators-derive/src/validator_handlers/domain/mod.rs:591-599", "validators-derive/src/validator_handlers/host/mod.rs:500-508", "validators-derive/src/validator_handlers/base64_url/mod.rs", "validators-derive/src/validator_handlers/ip/mod.rs", "validators-derive/src/validator_handlers/signed_integer/mod.rs"]}
{"id": "C127", "title": "A text is an address of one kind only", "statement": "No text is accepted by two of these kinds of validators, whatever their attributes: ipv4, ipv6, mac_address, uuid, email, http_url (or http_ftp_url), and domain with ipv4(Disallow). So an untagged enum over them, or code that tries one after the other, gives the same answer in every order.", "quantifier": "every text, every two attributes of every two of the kinds, every behaviour of the url library, every behaviour of the IDNA library that keeps the delimiters : @ [ out of names", "why_tests_cant": "It compares the sets of texts of every two kinds under all attributes (any separator, any policy); the tests of the crate look at one validator at a time.", "anchors": ["validators-derive/src/validator_handlers/mac_address/mod.rs:49-133", "validators-derive/src/validator_handlers/uuid/mod.rs:48-121", "validators-derive/src/validator_handlers/ip/mod.rs", "validators-derive/src/validator_handlers/email/mod.rs: v_parse_str", "validators-derive/src/validator_handlers/http_url/mod.rs:86-111", "validators-derive/src/validator_handlers/domain/mod.rs:585-712"]}
{"id": "C128", "title": "A list of accepted texts written one after the other can be taken apart", "statement": "If accepted texts are written one after the other with a delimiter between them (a comma, a comma and a space, a semicolon, a blank), then no other list of accepted texts gives the same result: integers, numbers, boolean words, base texts, MAC addresses and uuids (even with the delimiter for a separator), ip addresses, domains, hosts and e-mail addresses, and also the e-mail addresses that values print. The same is true of accepted lines joined by line breaks.", "quantifier": "every attribute, every two lists of accepted texts, every delimiter that begins with an ASCII character other than a letter, a digit or one of + - . / : = [ ] _ (for identifiers: other than a hexadecimal digit; for lines: a character that is not allowed in a line), every library function for internationalised names that only takes letters, digits, hyphens and dots from ASCII", "why_tests_cant": "Ambiguity is a coincidence between two lists of any length; tests look at one text at a time, and the texts that contain the delimiter (quoted local parts, comments, leading white space) are the ones that tests of lists leave out. It is what a user relies on who stores validated recipients in one column.", "anchors": ["validators-derive/src/validator_handlers/email/mod.rs: v_parse_str, to_email_string", "validators-derive/src/validator_handlers/{mac_address,uuid}/mod.rs", "validators-derive/src/validator_handlers/{line,text}/mod.rs", "validators-derive/src/validator_handlers/{domain,host,ip,ipv4,ipv6}/mod.rs", "validators-derive/src/validator_handlers/{signed_integer,unsigned_integer,number,boolean,base32,base64,base64_url}/mod.rs"]}
{"id": "C129", "title": "Reading numbers keeps their order, and a range without a forbidden part has no holes", "statement": "Of two texts the one that writes the smaller amount (or the same amount in another spelling) is never read as a larger number, and of two floats given through the f32 or the f64 entry point the smaller one never comes out larger, whatever the validators allow. If a number or integer validator with an inside range, or with none, accepts two texts (or two floats), then it accepts every text of an amount (every float) between them.", "quantifier": "both float types and all integer types and pointer widths, every inside range, bounds included or not, every NaN attribute, every text of a number with sign, point, exponent or infinity whose length is at most 65000 bytes or whose exponent is below 65536, every float of either type", "why_tests_cant": "Order is a relation between any two of infinitely many texts; rounding twice, a tie broken the wrong way or a comparison made before the conversion breaks it only for neighbours that no test picks.", "anchors": ["validators-derive/src/validator_handlers/number/mod.rs: v_parse_str, v_parse_f, parse_f32, parse_f64", "validators/src/traits/validate_number.rs: parse_f32", "validators-derive/src/validator_handlers/{signed_integer,unsigned_integer}/mod.rs: v_parse_str, handle_range", "validators-derive/src/common/range_option.rs"]}
{"id": "C130", "title": "An accepted text used as a file name stays in its directory", "statement": "A text accepted by signed_integer, unsigned_integer, number, boolean, base32, base32_decoded, base64_url, base64_url_decoded, ip, ipv4, ipv6, domain or host, and what an accepted address or name prints as its URI authority, is the name of a file in the directory at hand: it is not empty, has no slash and no NUL in it, and is neither '.' nor '..'. The same holds of mac_address and uuid unless the separator chosen in the attribute is a slash or NUL. An e-mail address without comments and quotes, and what it prints, has no '..' component in it, so it never leads above the directory. Findings: an e-mail address may be an absolute path such as /etc/cron.d/x@d.org; with quotes, \"../../etc/x\"@d.org is accepted and prints without the quotes, beginning with ../../; a comment may hold /../; a base64 text such as /etc/ssh is an absolute path.", "quantifier": "for all texts, all attributes of the validators, all behaviours of to_ascii that obey the stated laws (for names and e-mail addresses)", "why_tests_cant": "No list of texts shows that nothing accepted contains a slash or is a dot name: the numeric, dotted and IDNA grammars have infinitely many members made mostly of dots, and an attribute may allow many of them.", "anchors": ["validators-derive/src/validator_handlers/number/mod.rs", "validators-derive/src/validator_handlers/base64_url/mod.rs", "validators-derive/src/validator_handlers/mac_address/mod.rs", "validators-derive/src/validator_handlers/ip/mod.rs", "validators-derive/src/validator_handlers/domain/mod.rs", "validators-derive/src/validator_handlers/host/mod.rs", "validators-derive/src/validator_handlers/email/mod.rs"]}
{"id": "C131", "title": "Hosts and protocols can be compared, sorted and used as keys", "statement": "Comparison of Host values (from host and email) and of Protocol values is a linear order that agrees with their equality: two compare as equal exactly when they are the same value, swapping the two swaps the answer, and less-than is transitive. Names come before IPv4 addresses and these before IPv6 addresses; names are in dictionary order of their bytes, addresses in the order of the 32-bit or 128-bit numbers they are; http comes before https and https before ftp. Hosts that a validator returned and that differ feed different bytes to a hasher, none of them the beginning of the other, so no key of several parts is confused with another. A host accepted twice in spellings that differ in letter case, under whatever two attributes, is the same key. Findings: sorting hosts is not sorting what they print (9.0.0.1 comes before 10.0.0.1); the e-mail addresses a@1.2.3.4 and a@[1.2.3.4] have hosts that print alike and are different keys.", "quantifier": "for all hosts and protocols; for the bytes hashed all hosts returned by host or email, all attributes, all behaviours of to_ascii that obey the stated laws", "why_tests_cant": "Order laws speak of all pairs and triples of values, and collision of the hashed bytes of any two returned hosts depends on what no accepted name can contain.", "anchors": ["validators/src/models/host.rs", "validators/src/models/protocol.rs", "validators-derive/src/validator_handlers/host/mod.rs", "validators-derive/src/validator_handlers/email/mod.rs"]}
{"id": "C132", "title": "An accepted text put in a cell of a spreadsheet is not a formula", "statement": "A spreadsheet takes a cell for a formula if it begins with =, +, -, @, a tab or a carriage return. No text accepted by boolean, base32, base32_decoded, mac_address, uuid, ip, ipv4, ipv6, domain, host, http_url or http_ftp_url begins so, whatever the attribute, and neither does what an accepted address or name prints as its URI authority. An accepted integer that begins so is a sign and decimal digits, an accepted number begins with its sign, and neither has anything in it that could call a function or reach another sheet or program. A base64 text can only begin with + and a base64_url text only with -. An accepted e-mail address, or what it prints, begins so only if its local part does. Findings: =cmd|'/C'!A0@example.com is accepted and prints as it is; a quoted local part \"=SUM\\(A1\\:A9\\)\" prints without its quotes; +1+2 is a base64 text and -A1- a base64_url text.", "quantifier": "for all texts, all attributes of the validators, all behaviours of the url library, all behaviours of to_ascii that obey the stated laws (for names)", "why_tests_cant": "That nothing accepted begins with one of six characters is a claim about all texts and all attributes; the padding character = is legal in base texts, so its absence at the front follows only from the block arithmetic.", "anchors": ["validators-derive/src/validator_handlers/signed_integer/mod.rs", "validators-derive/src/validator_handlers/number/mod.rs", "validators-derive/src/validator_handlers/base32/mod.rs", "validators-derive/src/validator_handlers/base64/mod.rs", "validators-derive/src/validator_handlers/mac_address/mod.rs", "validators-derive/src/validator_handlers/ip/mod.rs", "validators-derive/src/validator_handlers/domain/mod.rs", "validators-derive/src/validator_handlers/host/mod.rs", "validators-derive/src/validator_handlers/email/mod.rs"]}
{"id": "C133", "title": "A validators::Result can do what its value and its error can", "statement": "Comparing two validators::Result values is a linear order whenever comparing their values and comparing their errors are, and equality holds exactly for the same result: every accepted value comes before every error, and two of a kind compare as what is taken out of them. With the default third parameter a Result is Copy, Clone, comparable, hashable or printable with Debug exactly when its value type and its error type are. So with an error type of the crate it is printable if the value is, and cloneable if the value is, except for json, phone, semver and semver_req. Findings: no error type of the crate implements PartialEq, so no Result with one can be compared, sorted, hashed or copied, whatever the value type: the derived impls are reachable only with foreign error types; with another third parameter Debug is missing although all three parameters have it.", "quantifier": "for all value types, error types and comparisons on them, all 31 validators", "why_tests_cant": "The order laws quantify over all types and all orders on them; that an impl is missing is something a test can only state by failing to compile.", "anchors": ["validators/src/result/mod.rs", "validators/src/result/built_in_traits.rs", "validators/src/errors/mod.rs", "validators/src/errors/json.rs", "validators/src/errors/phone.rs", "validators/src/errors/semver.rs"]}
{"id": "C134", "title": "An accepted text written into the query of a web address comes out as it went in", "statement": "A server takes the parameters out of a web address by cutting the query at & and =, reading + as a space and %xx as an octet (WHATWG URL standard). An accepted boolean, base32 or base64_url text, checked or decoded, written behind any address and any parameter name is read back as that parameter with the same text, and the parameters around it stay the same. So is an accepted integer, number, base64 text, MAC address, UUID (with a separator that is a letter, a digit or one of + - . / : = [ ] _), IP address, domain or host exactly if it has no plus sign in it; what an accepted IP address or host prints never has one. What an accepted e-mail address prints is read back if its local part and its comments have none of # % & +; so is the address itself if nothing is behind its domain. Findings: +5 is an integer, +1+2 a base64 text and 1.2.3.4:+80 an address with a port, and what the server reads is refused; a&admin=1@example.com is accepted and brings a parameter admin of its own; so does a@example.com(b)&admin=1, which prints as a@example.com(b); a%62@example.com is accepted and read as the other accepted address ab@example.com.", "quantifier": "for all texts, all addresses and parameter names around them, all attributes of the validators, all behaviours of to_ascii that obey the stated laws (for names and e-mail addresses)", "why_tests_cant": "That nothing accepted is changed by the decoding is a claim about all texts under all attributes and all surroundings.", "anchors": ["validators-derive/src/validator_handlers/signed_integer/mod.rs", "validators-derive/src/validator_handlers/number/mod.rs", "validators-derive/src/validator_handlers/boolean/mod.rs", "validators-derive/src/validator_handlers/base32/mod.rs", "validators-derive/src/validator_handlers/base64/mod.rs", "validators-derive/src/validator_handlers/base64_url_decoded/mod.rs", "validators-derive/src/validator_handlers/mac_address/mod.rs", "validators-derive/src/validator_handlers/uuid/mod.rs", "validators-derive/src/validator_handlers/ip/mod.rs", "validators-derive/src/validator_handlers/domain/mod.rs", "validators-derive/src/validator_handlers/host/mod.rs", "validators-derive/src/validator_handlers/email/mod.rs"]}
{"id": "C135", "title": "When a text breaks several rules, a fixed order decides which error is reported", "statement": "Take a text that a validator accepts when all its policies are Allow. Under any other policies the result depends only on which rules the text breaks, and the first broken one in a fixed order is reported; if none is broken the same address, host or domain name and port result. ip, ipv4 and ipv6: the port, then locality. domain: the port, then the rule on IPv4 addresses, then the labels, then locality, for IPv4 texts and for names. host: the port, then the labels, then locality for IPv4 addresses and names. email (with the same rule on non-ASCII local parts): a comment before the domain, then the rule on IP addresses, then the labels, then locality, then a comment behind the domain. line and text without trimmed_min, for every text: with byte_length too long, then too short, then a forbidden character; with char_length a forbidden character among the first max + 1, then too short, then too long. With trimmed_min and without max: a forbidden character behind the leading white space, then too short. http_url and http_ftp_url, for every text and every URL library that gives URLs of these schemes a host: the scheme, then the error of the library, then locality. Findings: for IPv6 addresses, in brackets or not, the host validator looks at the labels before the port, so that with port(Must) and at_least_two_labels(Disallow) 1.2.3.4 is refused for its missing port and ::1 and [::1] for their labels. With comment(Disallow) and local(Disallow) (c)a@localhost is refused for its comment and a@localhost(c) for being local. With max = 2 the line a, line feed, b is too long by byte_length and invalid by char_length.", "quantifier": "for all texts that are accepted without policies (all texts for line, text and URLs), all combinations of policies, all behaviours of to_ascii and of the URL library under the hypothesis that it gives these URLs a host", "why_tests_cant": "A test fixes one text and one combination of policies; that the order is the same for every text, and that nothing else of the text plays a part, is a claim about all of them.", "anchors": ["validators-derive/src/validator_handlers/ip/mod.rs", "validators-derive/src/validator_handlers/ipv4/mod.rs", "validators-derive/src/validator_handlers/ipv6/mod.rs", "validators-derive/src/validator_handlers/host/mod.rs", "validators-derive/src/validator_handlers/domain/mod.rs", "validators-derive/src/validator_handlers/email/mod.rs", "validators-derive/src/validator_handlers/line/mod.rs", "validators-derive/src/validator_handlers/text/mod.rs", "validators-derive/src/validator_handlers/http_url/mod.rs", "validators-derive/src/validator_handlers/http_ftp_url/mod.rs"]}
