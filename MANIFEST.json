{
 "claims": [
  {
   "property": "C01",
   "status": "proved",
   "theorems": [
    "C01_integer_range_exact",
    "C01_outside_without_bounds_refuted"
   ],
   "note": "Exact acceptance for every attribute that compiles and has at least one bound; refuted for Outside() without bounds (accepts everything); an unsigned Outside with two bounds and more than one value does not compile (C90)."
  },
  {
   "property": "C02",
   "status": "proved",
   "theorems": [
    "C02_integer_entry_points",
    "C02_integer_entry_points_agree"
   ],
   "note": "All entry widths, both signednesses, all pointer widths; excludes the degenerate attributes (Outside() without bounds, see C01, and unsigned gaps, which do not compile, see C90)."
  },
  {
   "property": "C03",
   "status": "proved",
   "theorems": [
    "C03_integer_strings",
    "C03_integer_print_parse"
   ],
   "note": "Core integer FromStr/Display are modelled concretely; excludes the degenerate attributes of C01 and C90."
  },
  {
   "property": "C04",
   "status": "proved",
   "theorems": [
    "C04_integer_error_kinds"
   ],
   "note": ""
  },
  {
   "property": "C05",
   "status": "proved",
   "theorems": [
    "C05_number_exact",
    "C05_number_errors",
    "C05_number_f32_in_f64",
    "C05_number_strings",
    "C05_number_validate"
   ],
   "note": "Floats are the standard library's specification floats; float FromStr is an arbitrary function. Bounds are non-NaN floats of the field type; excludes the degenerate Outside() attribute (see C01)."
  },
  {
   "property": "C06",
   "status": "partial",
   "theorems": [
    "C06_narrowing_refuted",
    "C06_kept_value_partial",
    "C06_in_range_accepted_partial",
    "C06_representable_partial"
   ],
   "note": "Refuted (16777217 accepted under max 16777216). Proved instead: the kept value is in range, no in-range number of a closed range is refused, exact for representable numbers."
  },
  {
   "property": "C07",
   "status": "proved",
   "theorems": [
    "C07_size_exact",
    "C07_size_entry_points"
   ],
   "note": "byte_unit's string parser and the capacity of the size type are universally quantified."
  },
  {
   "property": "C08",
   "status": "proved",
   "theorems": [
    "C08_length_exact"
   ],
   "note": "For every accepted attribute whose two bounds differ (see C09)."
  },
  {
   "property": "C09",
   "status": "partial",
   "theorems": [
    "C09_length_scope_refuted",
    "C09_length_scope_partial"
   ],
   "note": "Refuted for min = max; the partial theorem characterises exactly when the generated program is well scoped."
  },
  {
   "property": "C10",
   "status": "partial",
   "theorems": [
    "C10_range_nonempty_partial",
    "C10_range_literal_refuted"
   ],
   "note": "Holds for the keyword form (with or without feature full); refuted for the literal form."
  },
  {
   "property": "C11",
   "status": "proved",
   "theorems": [
    "C11_no_trimmed_min_exact",
    "C11_entry_points"
   ],
   "note": "All eight shapes without trimmed_min, for line and text; strings are lists of scalar values with their UTF-8 encoding."
  },
  {
   "property": "C12",
   "status": "proved",
   "theorems": [
    "C12_trimmed_min_exact",
    "C12_trimming_unique"
   ],
   "note": "Exact, with the exception the property names (leading white space is not scanned; see C13)."
  },
  {
   "property": "C13",
   "status": "partial",
   "theorems": [
    "C13_line_break_refuted",
    "C13_text_refuted",
    "C13_no_control_partial"
   ],
   "note": "Refuted with trimmed_min (leading LF in a line, leading U+000C in a text); proved without trimmed_min and outside the leading white space."
  },
  {
   "property": "C14",
   "status": "partial",
   "theorems": [
    "C14_too_short_refuted",
    "C14_errors_partial"
   ],
   "note": "TooShort refuted for over-long strings under char_length with trimmed_min and max; everything else proved, including Invalid and TooLong."
  },
  {
   "property": "C15",
   "status": "proved",
   "theorems": [
    "C15_satisfiable"
   ],
   "note": ""
  },
  {
   "property": "C16",
   "status": "proved",
   "theorems": [
    "C16_boolean_words",
    "C16_boolean_otherwise"
   ],
   "note": ""
  },
  {
   "property": "C17",
   "status": "proved",
   "theorems": [
    "C17_boolean_char",
    "C17_boolean_int",
    "C17_boolean_entry_points"
   ],
   "note": "All integer widths, both signednesses, all pointer widths, through the trait defaults."
  },
  {
   "property": "C18",
   "status": "proved",
   "theorems": [
    "C18_base_memory_safe",
    "C18_base_entry_points"
   ],
   "note": "Accepted bytes are ASCII, stored text is the input, six entry points agree, none panics."
  },
  {
   "property": "C19",
   "status": "proved",
   "theorems": [
    "C19_base_language"
   ],
   "note": "Exact language, three alphabets, three policies."
  },
  {
   "property": "C20",
   "status": "proved",
   "theorems": [
    "C20_padding_policy",
    "C20_padding_errors"
   ],
   "note": "Policies honoured; PaddingMust iff the length is not whole blocks; PaddingDisallow only if '=' occurs."
  },
  {
   "property": "C21",
   "status": "partial",
   "theorems": [
    "C21_decodable_refuted",
    "C21_decodable_partial"
   ],
   "note": "False as stated (accepts impossible lengths and non-zero trailing bits): C21_decodable_refuted. Proved: exact condition under which an accepted text is an encoding."
  },
  {
   "property": "C22",
   "status": "proved",
   "theorems": [
    "C22_decoded_inverts_encoder",
    "C22_decoded_reencodes",
    "C22_decoded_exact",
    "C22_decoded_entry_points"
   ],
   "note": "Round trip with the RFC 4648 encoder for all byte sequences; exact characterisation of successful parses. The decoder of the data-encoding crate is modelled from its documented behaviour."
  },
  {
   "property": "C23",
   "status": "partial",
   "theorems": [
    "C23_validate_accepts_more_refuted",
    "C23_parse_accepts_more_refuted",
    "C23_validate_implies_parse_partial",
    "C23_parse_implies_validate_partial"
   ],
   "note": "False in both directions (two refuted theorems). Proved: the exact condition for each direction."
  },
  {
   "property": "C24",
   "status": "partial",
   "theorems": [
    "C24_decoded_serde_refuted",
    "C24_decoded_deserialize_partial",
    "C24_encoded_serde"
   ],
   "note": "False: no decoded value round-trips (C24_decoded_serde_refuted). Proved: deserialising a text is parsing it; the undecoded validators round-trip."
  },
  {
   "property": "C25",
   "status": "proved",
   "theorems": [
    "C25_mac_accepts_only",
    "C25_mac_accepts_exactly",
    "C25_mac_48_bits",
    "C25_mac_entry_points"
   ],
   "note": ""
  },
  {
   "property": "C26",
   "status": "partial",
   "theorems": [
    "C26_mac_panics_refuted",
    "C26_mac_no_panic_partial",
    "C26_mac_panics_exactly"
   ],
   "note": "Refuted: under separator(Allow) texts such as AA:BB:CC:DD: index out of bounds. C26_mac_panics_exactly characterises the panicking texts exactly; Must and Disallow never panic."
  },
  {
   "property": "C27",
   "status": "partial",
   "theorems": [
    "C27_mac_roundtrip_refuted",
    "C27_mac_roundtrip_partial",
    "C27_mac_prints"
   ],
   "note": "Refuted for every separator, case and value: the separator is printed as a decimal number (C27_mac_prints says exactly what is printed). Partial: validators without a separator round-trip."
  },
  {
   "property": "C28",
   "status": "proved",
   "theorems": [
    "C28_uuid_accepts_only",
    "C28_uuid_accepts_exactly",
    "C28_uuid_128_bits",
    "C28_uuid_entry_points"
   ],
   "note": ""
  },
  {
   "property": "C29",
   "status": "proved",
   "theorems": [
    "C29_uuid_no_panic"
   ],
   "note": ""
  },
  {
   "property": "C30",
   "status": "partial",
   "theorems": [
    "C30_uuid_roundtrip_refuted",
    "C30_uuid_roundtrip_partial",
    "C30_uuid_prints"
   ],
   "note": "Refuted for every separator, case and value: the separator is printed as a decimal number (C30_uuid_prints says exactly what is printed). Partial: validators without a separator round-trip."
  },
  {
   "property": "C31",
   "status": "proved",
   "theorems": [
    "C31_ip_no_panic",
    "C31_ipv4_accepts_exactly",
    "C31_ipv6_accepts_exactly",
    "C31_ip_accepts_exactly",
    "C31_ip_entry_points"
   ],
   "note": "Over UTF-8 strings; core::net text parsing is modelled concretely and shown equal to a grammar."
  },
  {
   "property": "C32",
   "status": "proved",
   "theorems": [
    "C32_ipv4_local_blocks",
    "C32_ipv6_local_blocks",
    "C32_ip_local_policy"
   ],
   "note": "Classification stated as CIDR blocks on the numeric address."
  },
  {
   "property": "C33",
   "status": "proved",
   "theorems": [
    "C33_ipv4_roundtrip",
    "C33_ipv6_roundtrip",
    "C33_ip_roundtrip"
   ],
   "note": "Through to_uri_authority_string and serde."
  },
  {
   "property": "C34",
   "status": "proved",
   "theorems": [
    "C34_ip_is_union",
    "C34_never_both"
   ],
   "note": ""
  },
  {
   "property": "C35",
   "status": "partial",
   "theorems": [
    "C35_ip_port_plus_refuted",
    "C35_ip_port_partial"
   ],
   "note": "Refuted: a leading plus sign is accepted in a port. The partial theorem bounds the port text to an optional plus and decimal digits."
  },
  {
   "property": "C36",
   "status": "partial",
   "theorems": [
    "C36_domain_accepts_exactly",
    "C36_domain_policies_partial",
    "C36_domain_disallowed_ipv4_refuted",
    "C36_domain_fields_refuted",
    "C36_domain_entry_points"
   ],
   "note": "Exact acceptance proved for every IDNA function. The policy claim is refuted: an IPv4 address written with ideographic full stops passes ipv4(Disallow)/local(Disallow) and is stored as the IPv4 address. Holds when the IDNA mapping creates no IPv4 address."
  },
  {
   "property": "C37",
   "status": "partial",
   "theorems": [
    "C37_domain_keeps_port_refuted",
    "C37_domain_stored_port",
    "C37_domain_roundtrip_partial"
   ],
   "note": "Refuted: under a non-trivial policy an IPv4 address keeps its port in the domain field and prints it twice. Characterised exactly; round trip proved for all other values under explicit IDNA laws."
  },
  {
   "property": "C38",
   "status": "proved",
   "theorems": [
    "C38_domain_no_panic",
    "C38_domain_fields_present"
   ],
   "note": "For every IDNA function."
  },
  {
   "property": "C39",
   "status": "partial",
   "theorems": [
    "C39_host_accepts_exactly",
    "C39_host_policies_partial",
    "C39_host_address_policies",
    "C39_host_disallowed_local_refuted",
    "C39_host_field_refuted",
    "C39_host_entry_points"
   ],
   "note": "Exact acceptance for every IDNA behaviour; policies hold when IDNA creates no new IPv4 address; refuted in general (ideographic full stops bypass local(Disallow) and make is_local false)."
  },
  {
   "property": "C40",
   "status": "proved",
   "theorems": [
    "C40_host_no_panic"
   ],
   "note": "All UTF-8 strings, all policies, every IDNA behaviour."
  },
  {
   "property": "C41",
   "status": "partial",
   "theorems": [
    "C41_host_roundtrip_partial",
    "C41_host_kind_refuted",
    "C41_host_final_dot_refuted"
   ],
   "note": "Round trip (text and JSON) under the IDNA laws for hosts that are not names reading as IPv4 or ending in a dot; refuted for both exceptions."
  },
  {
   "property": "C42",
   "status": "partial",
   "theorems": [
    "C42_email_no_panic_partial",
    "C42_email_no_panic_refuted",
    "C42_email_quoted_no_panic_refuted",
    "C42_email_panics_exactly"
   ],
   "note": "False as stated: in a debug build 64 letters followed by a comment panic (64 - local_part_length, email/mod.rs:904); C42_email_no_panic_refuted. Proved: no panic in a release build, or without comments, or without an opening parenthesis at byte 64 or later; C42_email_panics_exactly characterises the panicking texts exactly."
  },
  {
   "property": "C43",
   "status": "partial",
   "theorems": [
    "C43_email_local_nonempty",
    "C43_email_local_bound_partial",
    "C43_email_non_ascii_bound_refuted",
    "C43_email_comment_bound_refuted"
   ],
   "note": "False as stated: a non-ASCII character at byte 64, or a first comment of 61 bytes before a quoted local part, lifts the limit. Proved: nonempty always; at most 64 bytes without non-ASCII characters and with a first comment of at most 60 bytes."
  },
  {
   "property": "C44",
   "status": "partial",
   "theorems": [
    "C44_email_accepts_exactly",
    "C44_email_consumed_partial",
    "C44_email_consumed_refuted"
   ],
   "note": "False as stated: any text is accepted after the fourth comment. Proved: the exact set of accepted texts with their values, and that nothing else is left over."
  },
  {
   "property": "C45",
   "status": "partial",
   "theorems": [
    "C45_email_dot_atom_partial",
    "C45_email_dot_atom_refuted"
   ],
   "note": "False as stated: a final dot is accepted (a.@example.com). Proved: dot-separated nonempty runs with at most a final dot."
  },
  {
   "property": "C46",
   "status": "partial",
   "theorems": [
    "C46_email_roundtrip_partial",
    "C46_email_quotes_refuted",
    "C46_email_length_refuted",
    "C46_email_final_dot_refuted"
   ],
   "note": "False as stated: with comment(Disallow) needed quotes are not printed; the quotes are deducted from the domain length; IDNA may give a final dot. Proved with those excluded, for IDNA functions that satisfy idna_laws."
  },
  {
   "property": "C47",
   "status": "proved",
   "theorems": [
    "C47_email_policies",
    "C47_email_entry_points"
   ],
   "note": "Locality and the ip policy are those of the returned host, in which an unbracketed address is a name; see C56."
  },
  {
   "property": "C48",
   "status": "partial",
   "theorems": [
    "C48_signed_json",
    "C48_signed_refuted",
    "C48_unsigned_json",
    "C48_unsigned_refuted",
    "C48_integer_binary",
    "C48_number_f64_json",
    "C48_number_f32_json",
    "C48_number_f32_widened",
    "C48_number_binary",
    "C48_number_refuted"
   ],
   "note": "Exact characterisation: signed integers come back from JSON exactly when negative and >= -2^63, unsigned exactly below 2^64, doubles exactly when finite, singles from any double that rounds to them; all come back from formats that present what was written. The claim itself is refuted (C48_signed_refuted, C48_unsigned_refuted, C48_number_refuted)."
  },
  {
   "property": "C49",
   "status": "partial",
   "theorems": [
    "C49_deserialize_returns_refuted",
    "C49_never_returns"
   ],
   "note": "Refuted: the impl calls itself in tail position and never returns, for url, semver and semver_req, on any input."
  },
  {
   "property": "C50",
   "status": "partial",
   "theorems": [
    "C50_deserialize",
    "C50_no_validator_error",
    "C50_json_strings",
    "C50_byte_json",
    "C50_byte_binary",
    "C50_json",
    "C50_length",
    "C50_bit_refuted",
    "C50_bit_partial",
    "C50_conversions",
    "C50_text_conversions"
   ],
   "note": "Proved for every validator with a visitor, for json, length, and on JSON for byte; all From/FromStr/form conversions. Refuted for bit (C50_bit_refuted): the wrapper refuses JSON numbers even if the library's own impl, which the validator uses, accepts them. url/semver/semver_req: the wrapper is characterised on JSON strings (C50_json_strings), their own impl does not return (C49)."
  },
  {
   "property": "C51",
   "status": "partial",
   "theorems": [
    "C51_several_countries",
    "C51_order_irrelevant",
    "C51_one_country",
    "C51_any_country",
    "C51_entry_points",
    "C51_countries_attribute",
    "C51_valid_for_one_refuted"
   ],
   "note": "Acceptance is independent of the country order and every returned number is valid for its country, for every behaviour of the phone library. The last sentence of the claim is refuted (C51_valid_for_one_refuted): a parse error for one listed country rejects a number valid for another."
  },
  {
   "property": "C52",
   "status": "partial",
   "theorems": [
    "C52_round_trip_refuted",
    "C52_no_strings",
    "C52_strings_change",
    "C52_values_change",
    "C52_text_partial",
    "C52_value_partial"
   ],
   "note": "Refuted (C52_round_trip_refuted; for String and Value a different value comes back silently). Proved: parse_str reads the minified/beautified text back if serde_json does."
  },
  {
   "property": "C53",
   "status": "proved",
   "theorems": [
    "C53_range_order",
    "C53_length_order",
    "C53_utf8_order",
    "C53_collection_order",
    "C53_range_values",
    "C53_length_values",
    "C53_utf8_values",
    "C53_range_accepts",
    "C53_length_accepts",
    "C53_utf8_accepts",
    "C53_collection_exact",
    "C53_range_literal"
   ],
   "note": "range, char/byte length, line/text and collection-length attributes."
  },
  {
   "property": "C54",
   "status": "proved",
   "theorems": [
    "C54_http_accepts_exactly",
    "C54_http_ftp_accepts_exactly",
    "C54_protocol_error",
    "C54_no_panic",
    "C54_entry_points"
   ],
   "note": "Exact acceptance condition for both validators, for every behaviour of the URL library that reports the scheme it parsed; no panic; all entry points agree."
  },
  {
   "property": "C55",
   "status": "proved",
   "theorems": [
    "C55_non_fully_qualified",
    "C55_is_fully_qualified",
    "C55_local_and_labels",
    "C55_final_dot"
   ],
   "note": ""
  },
  {
   "property": "C56",
   "status": "partial",
   "theorems": [
    "C56_email_bare_address_refuted",
    "C56_email_literal_address_partial"
   ],
   "note": "False as stated: a@127.0.0.1 is accepted. Proved: the returned host is a name that is not localhost."
  },
  {
   "property": "C57",
   "status": "partial",
   "theorems": [
    "C57_email_ascii_local_partial",
    "C57_email_ascii_refuted"
   ],
   "note": "False as stated: comments are not checked. Proved for the local part."
  },
  {
   "property": "C58",
   "status": "partial",
   "theorems": [
    "C58_email_quoted_string_partial",
    "C58_email_escaped_space_refuted",
    "C58_email_escape_past_space_refuted"
   ],
   "note": "False as stated: the escape state is not cleared by a space or tab. Proved: strings in which no blank follows a backslash are accepted."
  },
  {
   "property": "C60",
   "status": "proved",
   "theorems": [
    "C60_http_round_trip",
    "C60_http_ftp_round_trip"
   ],
   "note": "For every URL library that re-reads its own output (hypothesis of the theorem)."
  },
  {
   "property": "C61",
   "status": "partial",
   "theorems": [
    "C61_protocol_error_partial",
    "C61_protocol_error_refuted"
   ],
   "note": "Proved for texts without a leading character that the library strips; refuted in general (C61_protocol_error_refuted): a leading space gives ProtocolError although the library reads scheme http."
  },
  {
   "property": "C62",
   "status": "partial",
   "theorems": [
    "C62_phone_round_trip_refuted",
    "C62_phone_objects_refused_partial",
    "C62_phone_strings_partial"
   ],
   "note": "Refuted (C62_phone_round_trip_refuted): the library serialises a phone number as a map and the validator deserialises only strings. What is proved: objects are always refused, strings are parsed."
  },
  {
   "property": "C59",
   "status": "partial",
   "theorems": [
    "C59_signed_integers",
    "C59_unsigned_integers",
    "C59_signed_refuted",
    "C59_number_floats",
    "C59_number_integers_refused",
    "C59_number_refuted",
    "C59_number_large_integers",
    "C59_boolean",
    "C59_byte_numbers_refused",
    "C59_byte_refuted"
   ],
   "note": "Exact characterisation for signed, unsigned, number, boolean. Refuted for signed (non-negative integers), number (integers) and byte (all numbers)."
  },
  {
   "property": "C63",
   "status": "proved",
   "theorems": [
    "C63_boolean_round_trip",
    "C63_line_round_trip",
    "C63_regex_round_trip",
    "C63_length_round_trip"
   ],
   "note": "For length: given that the collection type itself round-trips."
  },
  {
   "property": "C64",
   "status": "partial",
   "theorems": [
    "C64_integers_partial",
    "C64_large_integers",
    "C64_integers_refuted",
    "C64_floats_partial",
    "C64_nan_is_null",
    "C64_nan_refuted",
    "C64_others"
   ],
   "note": "Proved for integers from i64::MIN to u64::MAX, finite floats and booleans; refuted for larger 128-bit integers (C64_integers_refuted) and for NaN/infinities, which are taken for null (C64_nan_refuted)."
  },
  {
   "property": "C65",
   "status": "proved",
   "theorems": [
    "C65_visitors",
    "C65_json_strings",
    "C65_owned_borrowed"
   ],
   "note": "All validators except bit, json, length, url, semver, semver_req, which have no visitor."
  },
  {
   "property": "C66",
   "status": "proved",
   "theorems": [
    "C66_phone_first",
    "C66_basic",
    "C66_base",
    "C66_http",
    "C66_ip",
    "C66_host",
    "C66_domain",
    "C66_email",
    "C66_mac_uuid",
    "C66_integer",
    "C66_number",
    "C66_bit",
    "C66_byte",
    "C66_phone",
    "C66_regex",
    "C66_length",
    "C66_line_text",
    "C66_order"
   ],
   "note": ""
  },
  {
   "property": "C67",
   "status": "proved",
   "theorems": [
    "C67_feature_off",
    "C67_serde_table",
    "C67_rocket_table"
   ],
   "note": ""
  },
  {
   "property": "C68",
   "status": "partial",
   "theorems": [
    "C68_unlimited_arguments_refuted",
    "C68_unlimited_arguments_partial"
   ],
   "note": "refuted: arguments written after Unlimited, as in range(Unlimited(min = 1)), are accepted and ignored; proved: Inside and Outside are taken as written"
  },
  {
   "property": "C69",
   "status": "partial",
   "theorems": [
    "C69_struct_fits_partial",
    "C69_struct_needed",
    "C69_only_structs",
    "C69_numeric_types",
    "C69_numeric_accepted",
    "C69_struct_exists",
    "C69_plain_accepted",
    "C69_generics_refuted",
    "C69_generics_ignored",
    "C69_http_fields_refuted",
    "C69_asked_for_partial",
    "C69_asked_for_byte_refuted",
    "C69_asked_for_unsigned_refuted",
    "C69_asked_for_phone_refuted",
    "C69_asked_for_wrong",
    "C69_port_field"
   ],
   "note": "Proved for all validators but http_url/http_ftp_url, whose field names are not checked (refuted). The compile error names the wrong struct for byte, unsigned_integer and phone with at most one country (refuted). Generic structs are accepted although no generated impl header names their arguments (refuted); whether the macro accepts does not depend on the generics. Field types other than the numeric ones are left to rustc."
  },
  {
   "property": "C70",
   "status": "proved",
   "theorems": [
    "C70_one_attribute",
    "C70_others_ignored",
    "C70_none_or_two"
   ],
   "note": "All attribute lists and feature sets."
  },
  {
   "property": "C71",
   "status": "proved",
   "theorems": [
    "C71_domain",
    "C71_host",
    "C71_email",
    "C71_ip",
    "C71_base",
    "C71_mac_uuid",
    "C71_integer",
    "C71_integer_bounds",
    "C71_size_bounds",
    "C71_length_bounds",
    "C71_number",
    "C71_bit_byte",
    "C71_length",
    "C71_line_text",
    "C71_http",
    "C71_phone"
   ],
   "note": "Composes C66 with the exact acceptance theorems through the derive macro; integer and number ranges other than Outside() (see C01), length bounds that differ (see C09), optional separators that are not hexadecimal digits."
  },
  {
   "property": "C72",
   "status": "partial",
   "theorems": [
    "C72_domain",
    "C72_email",
    "C72_host",
    "C72_ip",
    "C72_domain_refused",
    "C72_email_refused",
    "C72_number_refuted",
    "C72_separator_refuted",
    "C72_separator_partial"
   ],
   "note": "Exact for domain, email, host and ip, given that to_ascii keeps localhost, a and a.org. False for number (nan(Must) with Inside accepts NaN) and for mac_address/uuid (a separator byte that occurs in no string)."
  },
  {
   "property": "C73",
   "status": "partial",
   "theorems": [
    "C73_ipv4",
    "C73_ipv6",
    "C73_ip",
    "C73_domain_port",
    "C73_domain_ipv4",
    "C73_domain_local",
    "C73_domain_two",
    "C73_host_port",
    "C73_host_local",
    "C73_host_two",
    "C73_email_local",
    "C73_email_ip",
    "C73_email_two",
    "C73_email_comment_non_ascii",
    "C73_base_padding",
    "C73_decoded_padding_refuted",
    "C73_decoded_padding_partial",
    "C73_separator_refuted",
    "C73_separator_partial",
    "C73_number_nan",
    "C73_http_local"
   ],
   "note": "Proved for all policies of ip, ipv4, ipv6, domain, host, email, base32/64, number nan and http local. Refuted for the padding of the decoded validators and for separators of mac_address and uuid; there the inclusions that do hold are proved."
  },
  {
   "property": "C74",
   "status": "partial",
   "theorems": [
    "C74_ip_errors",
    "C74_ip_port_error_refuted",
    "C74_domain_errors",
    "C74_host_errors",
    "C74_email_errors",
    "C74_email_errors_refuted",
    "C74_base_errors",
    "C74_identifier_errors",
    "C74_identifier_errors_refuted",
    "C74_http_errors"
   ],
   "note": "Proved for ip, ipv4, ipv6, domain, host, email, base32/64, mac_address, uuid, http_url and http_ftp_url, except: ip port errors and identifier separator errors are also given to texts no policy accepts (refuted), and email non_ascii(Disallow) gives plain Invalid (refuted). For email and for port and label errors the claim on the opposite value is restricted to texts accepted under Allow."
  },
  {
   "property": "C75",
   "status": "partial",
   "theorems": [
    "C75_domain_guarantees_partial",
    "C75_domain_guarantees_refuted",
    "C75_ip_guarantees",
    "C75_host_guarantees_partial",
    "C75_host_guarantees_refuted",
    "C75_email_guarantees_partial",
    "C75_email_guarantees_refuted",
    "C75_padding_guarantees_partial",
    "C75_padding_guarantees_refuted",
    "C75_separator_guarantees_partial",
    "C75_separator_guarantees_refuted"
   ],
   "note": "Proved for ip, ipv4, ipv6 in full; for domain and host under the law that IDNA makes no new IPv4 addresses (refuted without it), for host except AtLeastTwoLabelsDisallow on texts starting with a bracket, for email with the reading that only bracketed addresses are IPs; padding and separator guarantees hold for well-formed texts only. Line, text and http_url guarantees are C14 and C61."
  },
  {
   "property": "C76",
   "status": "partial",
   "theorems": [
    "C76_host_address_is_ip",
    "C76_host_name_is_domain_partial",
    "C76_host_name_final_dot_refuted",
    "C76_email_domain_is_host_partial",
    "C76_host_is_email_domain",
    "C76_line_is_text",
    "C76_http_in_http_ftp",
    "C76_decoded_in_base_partial",
    "C76_canonical_in_both",
    "C76_decoded_in_base_refuted",
    "C76_signed_and_unsigned"
   ],
   "note": "Host and domain agree on names without a final dot; a host refuses a final dot (C76_host_name_final_dot_refuted). The email domain agrees with the host validator unless its text is a dotted quad, which email treats as a name. A decoded text with inner padding (YQ==YQ==) is no base text (C76_decoded_in_base_refuted). The IDNA function is assumed to refuse (, : and [ (idna_std3)."
  },
  {
   "property": "C77",
   "status": "partial",
   "theorems": [
    "C77_grammar",
    "C77_number_text_exact",
    "C77_one_float",
    "C77_in_range_accepted_partial",
    "C77_above_max_accepted_refuted",
    "C77_below_exclusive_max_refused_refuted",
    "C77_integers_exact",
    "C77_f32_two_ways_partial",
    "C77_f32_two_ways_refuted",
    "C77_long_exponent_refuted"
   ],
   "note": "Acceptance is exact for the rounded number. For the number as written it holds in one direction only: numbers between inclusive bounds are accepted; 1.00000000000000000001 is accepted under max = 1.0 and 0.99999999999999999999 refused under an exclusive max = 1.0 (refuted). Reading through f64 gives another f32 for double-rounded texts (refuted). Core is modelled: its scanner, and its conversion by the documented contract; a text is read exactly if its exponent is below 2^16 or it has at most 65000 bytes, and longer ones can be misread (refuted: a 1 behind a million zeros)."
  },
  {
   "property": "C78",
   "status": "proved",
   "theorems": [
    "C78_regex",
    "C78_bad_pattern",
    "C78_regex_deserialized",
    "C78_library"
   ],
   "note": ""
  },
  {
   "property": "C79",
   "status": "partial",
   "theorems": [
    "C79_text",
    "C79_result",
    "C79_json_refuted",
    "C79_json_partial",
    "C79_library_refuted"
   ],
   "note": "Proved for every validator with a visitor, and for validators::Result of all but json and length. Refuted for json (the text becomes a JSON string) and for url, semver, semver_req (C49). What the deserialisers of axum present is a hypothesis (text_format)."
  },
  {
   "property": "C80",
   "status": "partial",
   "theorems": [
    "C80_size",
    "C80_exact",
    "C80_exact_refuted",
    "C80_limit"
   ],
   "note": "Exact when the equals signs are all at the end; with equals signs inside the text the length does not give the size (refuted), only the two bounds hold."
  },
  {
   "property": "C81",
   "status": "partial",
   "theorems": [
    "C81_display_parses_partial",
    "C81_display_identifies_partial",
    "C81_email_display_refuted",
    "C81_display_port_refuted",
    "C81_display_port",
    "C81_from_address"
   ],
   "note": "Hosts whose name is no dotted quad and has no final dot (plain_host). Refuted for email domains that are bare dotted quads; IPv6 hosts followed by a port need the brackets of to_uri_authority_string (refuted)."
  },
  {
   "property": "C82",
   "status": "partial",
   "theorems": [
    "C82_integer_expands",
    "C82_number_expands_exactly",
    "C82_written",
    "C82_literal_finite",
    "C82_number_expands_refuted"
   ],
   "note": "Integers: every accepted attribute expands. Refuted for number: a bound that overflows the field type, such as 1e39 on f32, panics in the macro. C82_number_expands_exactly and C82_literal_finite give the exact set."
  },
  {
   "property": "C83",
   "status": "partial",
   "theorems": [
    "C83_ip_text",
    "C83_host_text",
    "C83_url_text",
    "C83_base_text",
    "C83_hex_text",
    "C83_integer_text",
    "C83_number_text",
    "C83_domain_text_refuted",
    "C83_domain_ipv4_text_refuted",
    "C83_domain_text_partial",
    "C83_email_text_refuted",
    "C83_email_text_partial",
    "C83_line_text_refuted",
    "C83_line_text_partial",
    "C83_byte_text_refuted"
   ],
   "note": "Proved in full for ip, ipv4, ipv6, host, http_url, http_ftp_url, the base family, mac_address, uuid, integers and numbers (the text of a literal token is a function argument with stated laws). Refuted for domain, email, line/text and byte; the partial theorems say which policies must be compared besides the text."
  },
  {
   "property": "C84",
   "status": "partial",
   "theorems": [
    "C84_integer_fits",
    "C84_integer_cross_refuted",
    "C84_integer_host_independent",
    "C84_size_fits",
    "C84_length_fits",
    "C84_utf8_fits_exactly",
    "C84_utf8_fits_partial",
    "C84_utf8_refuted"
   ],
   "note": "Proved for integers, bit, byte and length, on the machine that ran the macro and, for fixed-size types, everywhere; the range check of isize/usize does not depend on the host once the constants fit. Refuted for line and text with char_length(max = usize::MAX), where the exact condition is proved, and for isize/usize bounds under cross-compilation."
  },
  {
   "property": "C85",
   "status": "proved",
   "theorems": [
    "C85_documented_defaults"
   ],
   "note": "For the parameters whose default can be written. The ranges of bit, byte and length, the lengths of line and text, and the countries of phone have no written form of their default, and are settled by C66 and C71."
  },
  {
   "property": "C86",
   "status": "partial",
   "theorems": [
    "C86_library_resolves",
    "C86_derive_resolves",
    "C86_generated_resolves",
    "C86_handed",
    "C86_expansion_resolves",
    "C86_additive",
    "C86_no_std_partial",
    "C86_no_std_refuted",
    "C86_derive_alone_refuted",
    "C86_derive_builds"
   ],
   "note": "Proved for every feature set for both crates and for generated code. Refuted: json mentions String outside the prelude (fails in no_std crates); feature derive alone does not build. Name resolution is modelled, type checking is not."
  },
  {
   "property": "C87",
   "status": "partial",
   "theorems": [
    "C87_documented_implemented_partial",
    "C87_implemented_documented_partial",
    "C87_implemented_once",
    "C87_strings",
    "C87_length_refuted",
    "C87_text_refuted",
    "C87_json_refuted",
    "C87_callable_partial"
   ],
   "note": "Proved for all validators but length, line and text; refuted for those (documented trait missing) and json (undocumented ToJsonString)."
  },
  {
   "property": "C88",
   "status": "partial",
   "theorems": [
    "C88_ip",
    "C88_domain",
    "C88_host",
    "C88_email",
    "C88_base",
    "C88_identifiers",
    "C88_http",
    "C88_number",
    "C88_integer",
    "C88_same_words_refuted",
    "C88_distinct",
    "C88_distinct_wrapped",
    "C88_number_core",
    "C88_responses",
    "C88_phone",
    "C88_size",
    "C88_length_partial",
    "C88_line_partial",
    "C88_protocols",
    "C88_number_range"
   ],
   "note": "Proved for every policy validator, integers as text, distinctness and responses. Refuted: the same number given as text and as an integer has different words. Texts of other libraries are arguments."
  },
  {
   "property": "C89",
   "status": "partial",
   "theorems": [
    "C89_validators",
    "C89_unsupported",
    "C89_fault",
    "C89_parameters",
    "C89_nested",
    "C89_reset_refuted",
    "C89_words",
    "C89_flags",
    "C89_number_forms",
    "C89_bool_forms",
    "C89_separator_forms",
    "C89_range_forms"
   ],
   "note": "proved for every error kind, every list and word shown, and the forms shown for numbers, booleans, separators and range options; refuted for the wording of one error: line and text report a reset of a length parameter that is given once"
  },
  {
   "property": "C90",
   "status": "partial",
   "theorems": [
    "C90_integer_names",
    "C90_unreadable_accepts_nothing",
    "C90_unsigned_outside_refuted"
   ],
   "note": "characterised exactly for every accepted declaration: all of signed_integer, and all of unsigned_integer but Outside ranges with two bounds and other than one value between them, for which it is refuted"
  },
  {
   "property": "C91",
   "status": "partial",
   "theorems": [
    "C91_unsigned_comes_back",
    "C91_negative_comes_back",
    "C91_signed_non_negative_refused",
    "C91_signed_refuted",
    "C91_byte",
    "C91_byte_refuted",
    "C91_wrapped_integers",
    "C91_wrapped_byte",
    "C91_boolean_widths"
   ],
   "note": "unsigned_integer, boolean, negative signed_integer values and Result of byte come back at every width; refuted for non-negative signed_integer values and for byte at any width but 128 bits. byte_unit itself is a parameter."
  },
  {
   "property": "C92",
   "status": "partial",
   "theorems": [
    "C92_any_refused",
    "C92_refuted",
    "C92_texts",
    "C92_byte",
    "C92_byte_refuted"
   ],
   "note": "the validators that ask for a text read it as they read a JSON string; refuted for the eleven that call deserialize_any (no input is read) and for byte sizes written with 64 bits. What a format reads at a wrong hint is an argument."
  },
  {
   "property": "C93",
   "status": "partial",
   "theorems": [
    "C93_as_meant_partial",
    "C93_any_name",
    "C93_module_refuted",
    "C93_struct_refuted",
    "C93_field_refuted",
    "C93_each_word_refuted"
   ],
   "note": "proved for modules and structs that leave 46 words (and D, E, MyVisitor) alone; refuted for an item called Result (every validator), for deserialised structs called D, E or MyVisitor, and for a type D in the field of length"
  },
  {
   "property": "C94",
   "status": "partial",
   "theorems": [
    "C94_email_written",
    "C94_email_printed_partial",
    "C94_email_printed_bound",
    "C94_email_printed_refuted"
   ],
   "note": "Proved: every accepted text has at most 320 octets and at most 255 behind the @; what is printed there has at most 255 octets if the local part needs no quotes, and at most 257 in any case. Refuted: 257 is attained when the local part needs quotes (finding)."
  },
  {
   "property": "C95",
   "status": "partial",
   "theorems": [
    "C95_phone_values",
    "C95_phone_errors",
    "C95_phone_errors_agree",
    "C95_phone_error_refuted",
    "C95_phone_expect",
    "C95_phone_expect_refuted"
   ],
   "note": "values and refusals as not valid: proved for every order; the library error that is reported, and the expecting text, depend on the order of the hash set (refuted)"
  },
  {
   "property": "C96",
   "status": "partial",
   "theorems": [
    "C96_integers",
    "C96_number",
    "C96_boolean",
    "C96_sizes",
    "C96_texts",
    "C96_base",
    "C96_addresses",
    "C96_panics_exactly",
    "C96_json_document_refuted",
    "C96_length",
    "C96_json",
    "C96_json_serialize_refuted"
   ],
   "note": "proved for all kinds but email and mac_address, for which the texts that panic are exactly those of C42 and C26 (refuted), and for the serialiser of json, which panics exactly when the field cannot be serialised (refuted)"
  },
  {
   "property": "C97",
   "status": "proved",
   "theorems": [
    "C97_integers",
    "C97_integer_texts",
    "C97_sizes",
    "C97_numbers",
    "C97_collections",
    "C97_lines",
    "C97_padding",
    "C97_separators",
    "C97_ip",
    "C97_host",
    "C97_domain",
    "C97_email",
    "C97_http",
    "C97_countries",
    "C97_determines",
    "C97_written",
    "C97_written_values",
    "C97_present",
    "C97_methods"
   ],
   "note": "all validators but regex, which exposes no constant; integer ranges that do not compile (C90) are left out, and host and domain need that IDNA maps no other text to an IPv4 address, without which the policies themselves fail (C36, C39)"
  },
  {
   "property": "C98",
   "status": "partial",
   "theorems": [
    "C98_integers",
    "C98_number",
    "C98_sizes",
    "C98_length",
    "C98_lines",
    "C98_units",
    "C98_trimmed_min_refuted",
    "C98_hex",
    "C98_hex_refuted",
    "C98_phone_partial",
    "C98_phone_refuted"
   ],
   "note": "proved for integers, number, bit, byte, length, and for line and text unless a trimmed minimum is taken away (refuted); for mac_address and uuid unless the separator is a digit (refuted); for phone unless the library cannot read the text for an added country (refuted)"
  },
  {
   "property": "C99",
   "status": "proved",
   "theorems": [
    "C99_declarations",
    "C99_declarations_refuted",
    "C99_integer_texts",
    "C99_integer_values",
    "C99_boolean_values",
    "C99_json_values",
    "C99_sizes"
   ],
   "note": "The literals of length, line and text limits are read as 64-bit numbers in the model, so the declarations part says nothing about a macro that runs on a narrower machine and meets a larger limit. Refuted, as it must be, for the bounds of isize and usize (C99_declarations_refuted)."
  },
  {
   "property": "C100",
   "status": "partial",
   "theorems": [
    "C100_ip",
    "C100_names",
    "C100_numbers",
    "C100_hex",
    "C100_hex_refuted",
    "C100_email_partial",
    "C100_email_refuted",
    "C100_urls"
   ],
   "note": "Refuted for the tag IPv6: of an e-mail address, which is recognised in one spelling only, and for a letter as separator; proved with these excluded. Names assume that idna ignores case, URLs that url reads both texts alike."
  },
  {
   "property": "C101",
   "status": "partial",
   "theorems": [
    "C101_visible",
    "C101_ip",
    "C101_names",
    "C101_hex_printed",
    "C101_email_partial",
    "C101_email_comment_refuted",
    "C101_email_tail_refuted",
    "C101_email_unicode_refuted"
   ],
   "note": "Proved for integers, numbers, booleans, base32/64 (also decoded), MAC addresses, uuids, ip addresses, domains and hosts, and for e-mail addresses without comments; refuted for comments, for what follows the fourth comment, and for line breaks outside ASCII in the local part."
  },
  {
   "property": "C102",
   "status": "partial",
   "theorems": [
    "C102_hex",
    "C102_ip",
    "C102_host_partial",
    "C102_host_refuted",
    "C102_domain_partial",
    "C102_domain_refuted",
    "C102_email"
   ],
   "note": "Proved for MAC addresses, uuids, ip addresses and e-mail addresses with all their comments; for hosts that are not names reading as an IPv4 address or ending in a dot; for domains if both or neither are fully qualified and IDNA makes no new IPv4 address. Refuted without these conditions."
  },
  {
   "property": "C103",
   "status": "partial",
   "theorems": [
    "C103_ip",
    "C103_domain",
    "C103_host",
    "C103_email",
    "C103_number",
    "C103_inside",
    "C103_inside_floats",
    "C103_hex_partial",
    "C103_length_partial",
    "C103_trimmed_min_refuted",
    "C103_hex_refuted"
   ],
   "note": "Proved for addresses, domains, hosts, e-mail addresses, numbers and the bounds of ranges and lengths. For identifiers under the hypothesis that the separator is no hexadecimal digit (refuted otherwise), and the least trimmed length does not act alone (refuted)."
  },
  {
   "property": "C104",
   "status": "partial",
   "theorems": [
    "C104_ip",
    "C104_ip_written",
    "C104_ip_written_refuted",
    "C104_hex_partial",
    "C104_hex_refuted",
    "C104_hex_written",
    "C104_host",
    "C104_domain_partial",
    "C104_domain_refuted",
    "C104_email",
    "C104_email_refuted"
   ],
   "note": "Proved for addresses, hosts and the texts of identifiers; for identifiers without separators; for domains whose port is not stored with the name; for e-mail addresses with 576 octets, and 319 without comments and non-ASCII local parts. Refuted for separators (printed as numbers), for domains with a stored port (no bound), for the limit of 320 octets of printed e-mail addresses, and for texts with a port (any number of leading zeros)."
  },
  {
   "property": "C105",
   "status": "partial",
   "theorems": [
    "C105_characters",
    "C105_bytes_partial",
    "C105_over_long_refused",
    "C105_bytes_refuted",
    "C105_fixed"
   ],
   "note": "Proved for lengths in characters, for e-mail addresses, MAC addresses, uuids and boolean words, and for lengths in bytes without a trimmed minimum or with a minimum; refuted for byte_length with a trimmed minimum and no minimum, where over-long texts are refused but read to their end."
  },
  {
   "property": "C106",
   "status": "partial",
   "theorems": [
    "C106_embeds",
    "C106_no_delimiter",
    "C106_unique",
    "C106_ip",
    "C106_host",
    "C106_domain_partial",
    "C106_domain_refuted"
   ],
   "note": "Proved for ip, ipv4, ipv6 and host, and for domains whose port is not stored with the name; refuted for those (C37)."
  },
  {
   "property": "C107",
   "status": "partial",
   "theorems": [
    "C107_as_meant_partial",
    "C107_names",
    "C107_names_refuted",
    "C107_helpers",
    "C107_integers",
    "C107_integers_refuted",
    "C107_numbers",
    "C107_numbers_refuted",
    "C107_domain",
    "C107_domain_refuted"
   ],
   "note": "the claim is refuted for integers narrower than 128 bits, f32 numbers and domains that may lack a port, whose code calls trait methods without naming the trait (witnesses); proved for everything else, and for these as well if the user has no function of the few names listed"
  },
  {
   "property": "C108",
   "status": "partial",
   "theorems": [
    "C108_mailbox_partial",
    "C108_unique",
    "C108_in_brackets",
    "C108_final_dot_refuted",
    "C108_quotes_refuted",
    "C108_tab_refuted",
    "C108_escape_refuted"
   ],
   "note": "Proved with the local part free of a final dot, the quotes printed when needed, no tab, no escaped space or non-ASCII character in quotes, and a name with neither final dot nor outer hyphens; each of the first four conditions is shown necessary by a refutation. Comments are outside the SMTP grammar."
  },
  {
   "property": "C109",
   "status": "partial",
   "theorems": [
    "C109_bytes",
    "C109_hosts",
    "C109_lines",
    "C109_max_refuted",
    "C109_email",
    "C109_email_builds",
    "C109_builds_refuted"
   ],
   "note": "every validator but email: debug and release agree on all widths (full); email: the same except for 64 - local_part_length, where the two builds are proved to differ"
  },
  {
   "property": "C110",
   "status": "partial",
   "theorems": [
    "C110_spelling",
    "C110_range_expression",
    "C110_integer_ranges",
    "C110_size_ranges",
    "C110_number_ranges",
    "C110_spelling_refuted",
    "C110_negative_refuted",
    "C110_empty_refuted"
   ],
   "note": "respelling one attribute never changes the outcome of the macro, for the parameters listed in SpellSpec.v; ranges in words equal range expressions unless empty; refuted for separator, serde/rocket, countries, range = word, a comma after a single word, negative bounds and empty ranges"
  },
  {
   "property": "C111",
   "status": "partial",
   "theorems": [
    "C111_ipv4",
    "C111_ipv6",
    "C111_authority",
    "C111_domain",
    "C111_uuid",
    "C111_eui48",
    "C111_json_number",
    "C111_mailbox_partial",
    "C111_mailbox_refuted",
    "C111_empty_port_refuted"
   ],
   "note": "Exact for IPv4, IPv6, uuid and mac_address; all host names, authorities and JSON numbers accepted. Mailboxes: proved when quoted content is not empty and has the specials of RFC 822 escaped and no space is; refuted otherwise (C111_mailbox_refuted). The empty port of RFC 3986 is refused (C111_empty_port_refuted). Base encodings: C22, C76."
  },
  {
   "property": "C112",
   "status": "partial",
   "theorems": [
    "C112_ip",
    "C112_host_partial",
    "C112_domain_partial",
    "C112_other_spellings",
    "C112_email_spellings",
    "C112_local_refuted",
    "C112_http",
    "C112_below_localhost",
    "C112_http_below_localhost",
    "C112_below_localhost_refuted"
   ],
   "note": "ip, ipv4 and ipv6 (through C34): proved. http_url and http_ftp_url: proved but for names below localhost, which get through (C112_http_below_localhost). host and domain: proved for the canonical spelling (the _partial theorems); refuted for every other spelling (C112_other_spellings, C112_local_refuted), for email also for the canonical one (C112_email_spellings), and for names below localhost (C112_below_localhost, C112_below_localhost_refuted)."
  },
  {
   "property": "C113",
   "status": "partial",
   "theorems": [
    "C113_panics_exactly",
    "C113_never_panics_partial",
    "C113_same_macro",
    "C113_panics_refuted"
   ],
   "note": "Refuted for one thing only: a range of a number validator with a bound that is not finite (C113_panics_refuted); C113_panics_exactly characterises the panicking sources exactly, C113_never_panics_partial covers all other validators. Country ids are assumed to be Rust tokens and named fields to have names (Rust grammar). unwrap of syn::parse2 on fixed tokens is not modelled."
  },
  {
   "property": "C114",
   "status": "partial",
   "theorems": [
    "C114_ipv4_exact",
    "C114_ipv6_exact",
    "C114_ip_lets_through_partial",
    "C114_ip_accepts_reachable",
    "C114_host_accepts_reachable",
    "C114_local_refuted",
    "C114_translated",
    "C114_translated_refuted"
   ],
   "note": "The first half is proved (C114_ip_accepts_reachable, C114_host_accepts_reachable; for IPv6 with the withdrawn blocks fec0::/10 and ::/96 and multicast of other than global scope left aside). The second half is refuted (C114_local_refuted, C114_translated_refuted); the addresses that are let through although not reachable are characterised exactly (C114_ipv4_exact, C114_ipv6_exact, C114_ip_lets_through_partial)."
  },
  {
   "property": "C115",
   "status": "partial",
   "theorems": [
    "C115_tame",
    "C115_ip",
    "C115_names",
    "C115_hex_printed",
    "C115_email_partial",
    "C115_email_refuted",
    "C115_email_printed_refuted"
   ],
   "note": "Proved for integers, numbers, booleans, base32/64 (also decoded), MAC addresses, uuids, ip addresses, domains and hosts, and for what follows the @ of e-mail addresses without comments; the local part is refuted (C115_email_refuted, C115_email_printed_refuted), an unquoted one is proved to stay one mailbox of a mail header (C115_email_partial)."
  },
  {
   "property": "C116",
   "status": "partial",
   "theorems": [
    "C116_ip",
    "C116_host",
    "C116_domain_partial",
    "C116_email_partial",
    "C116_hidden_refuted",
    "C116_base",
    "C116_decoded_refuted",
    "C116_identifiers",
    "C116_integers",
    "C116_numbers",
    "C116_length",
    "C116_line"
   ],
   "note": "Exact error sets proved for ip addresses, hosts, base encodings (text kept, or decoding validators that validate), MAC addresses, uuids, integers, numbers, collections, line and text; for domains and e-mail addresses exact up to the errors hidden when IPv4 (IP) is Must, which are characterised and refuted (C116_hidden_refuted); refuted for decoding base validators that parse (C116_decoded_refuted)."
  },
  {
   "property": "C117",
   "status": "partial",
   "theorems": [
    "C117_integers",
    "C117_numbers",
    "C117_booleans",
    "C117_sizes",
    "C117_lines",
    "C117_regex",
    "C117_base",
    "C117_lengths",
    "C117_texts",
    "C117_identifiers",
    "C117_ip",
    "C117_domains_partial",
    "C117_hosts_partial",
    "C117_emails",
    "C117_urls",
    "C117_phones"
   ],
   "note": "Proved for every configuration, as exact sets of values for integers (attributes whose check compiles, C02), numbers, lines and texts, regexes, base encodings and their decoded forms, collections, MAC addresses, uuids, ip addresses and URLs; as an invariant of every value for sizes, e-mail addresses and phone numbers (for sizes also the converse, below the capacity of the byte-unit library); for domains and hosts under the hypothesis that idna makes no IPv4 address of a text that is none (hosts that are addresses need no hypothesis), without which the policies are refuted by C36 and C39. Every bool is a value of a boolean validator. The deserialiser input, the regex, phone, url, float and idna libraries are quantified."
  },
  {
   "property": "C118",
   "status": "partial",
   "theorems": [
    "C118_sequences",
    "C118_keyed",
    "C118_last_value",
    "C118_order",
    "C118_is_empty",
    "C118_input_limit_refuted",
    "C118_kinds_differ_refuted"
   ],
   "note": "Proved for all seven collection types: exact acceptance, order, is_empty, last value; refuted for the last sentence on sets and maps (C118_input_limit_refuted, under every greatest length but 0; C118_kinds_differ_refuted), where it holds for Vec and BinaryHeap (C118_sequences). The attribute with min = max does not compile (C09) and is excluded."
  },
  {
   "property": "C119",
   "status": "partial",
   "theorems": [
    "C119_no_comments",
    "C119_comments_partial",
    "C119_domain_refuted"
   ],
   "note": "Proved for configurations without comments, and with comments if no backslash stands in front of a space. Refuted with comments: a mailbox at y.com is accepted as one at x.org."
  },
  {
   "property": "C120",
   "status": "partial",
   "theorems": [
    "C120_integers",
    "C120_numbers",
    "C120_identifiers",
    "C120_encoded_partial",
    "C120_encoded_refuted",
    "C120_addresses",
    "C120_hosts",
    "C120_domains_partial",
    "C120_domains_refuted",
    "C120_mailboxes_partial",
    "C120_mailboxes_refuted",
    "C120_mailboxes_apart"
   ],
   "note": "Proved for integers, numbers, MAC addresses, uuids, IP addresses and hosts; for domains that are no addresses; base texts with padding(Must) or padding(Disallow); mailboxes without backslashes; and that two mailboxes do not share a local part. Refuted for the rest."
  },
  {
   "property": "C121",
   "status": "partial",
   "theorems": [
    "C121_addr_spec_partial",
    "C121_domain_refuted"
   ],
   "note": "Proved for first, second and third comments without a closing parenthesis in them and local parts without an escaped space; false for a closing parenthesis, nested or quoted, in any of these three: C121_domain_refuted."
  },
  {
   "property": "C122",
   "status": "proved",
   "theorems": [
    "C122_own_texts",
    "C122_other_inputs",
    "C122_wrapped",
    "C122_number_core"
   ],
   "note": "Texts of other libraries are arguments: where an error wraps one, the body is that text."
  },
  {
   "property": "C123",
   "status": "partial",
   "theorems": [
    "C123_domain",
    "C123_host",
    "C123_email",
    "C123_email_long",
    "C123_name_length_refuted",
    "C123_whole_text"
   ],
   "note": "Proved that one piece is asked about, and its shape, for every validator, and that it has at most 255 octets for email; refuted for the length in domain and host (C123_name_length_refuted)."
  },
  {
   "property": "C124",
   "status": "partial",
   "theorems": [
    "C124_line_partial",
    "C124_text_partial",
    "C124_line_refuted",
    "C124_witnesses_refuted",
    "C124_email_partial",
    "C124_email_refuted"
   ],
   "note": "Proved: of ASCII no line end and no control but the tab is in a line (outside leading white space under a trimmed minimum), of ASCII controls only tab, LF, VT and CR are in a text, and the local part of an address without non-ASCII is printable. False beyond ASCII: any character of a line or text can be replaced with NEL, LS, PS, a C1 control or a bidirectional control, and the local part of an address with non-ASCII can hold them."
  },
  {
   "property": "C125",
   "status": "partial",
   "theorems": [
    "C125_kind_partial",
    "C125_kind_refuted",
    "C125_result_refuted",
    "C125_result_name",
    "C125_json_partial",
    "C125_binary_partial",
    "C125_asked_for_refuted"
   ],
   "note": "The kind is told but for line/text and base/decoded twins (refuted); Result describes itself by the name of the error type, in no case as the type does (refuted); the values refused although asked for are characterised exactly: in JSON non-negative and very small integers for signed_integer, integers from 2^64 for unsigned_integer, 64-bit integers for number, positive integers for byte (refuted), and nothing else."
  },
  {
   "property": "C126",
   "status": "partial",
   "theorems": [
    "C126_texts",
    "C126_ip",
    "C126_names",
    "C126_urls",
    "C126_email_partial",
    "C126_email_refuted",
    "C126_email_quoted_refuted",
    "C126_base64_url_refuted"
   ],
   "note": "holds for numbers, booleans, base32, base64, mac, uuid, ip, domain, host (given the hyphen rule of UTS #46) and http urls; refuted for email and base64_url"
  },
  {
   "property": "C127",
   "status": "partial",
   "theorems": [
    "C127_addresses",
    "C127_urls",
    "C127_email_partial",
    "C127_domain",
    "C127_email_refuted",
    "C127_domain_refuted",
    "C127_url_refuted"
   ],
   "note": "proved for ip, mac_address, uuid, http urls, email (separators other than @) and domain against ip; refuted for domain against uuid, mac_address and http_url, and for email against a separator @"
  },
  {
   "property": "C128",
   "status": "partial",
   "theorems": [
    "C128_texts",
    "C128_identifiers",
    "C128_addresses",
    "C128_names",
    "C128_email_partial",
    "C128_email_commas_refuted",
    "C128_email_refuted",
    "C128_lines",
    "C128_lines_refuted"
   ],
   "note": "proved for every kind but e-mail addresses with comments and lines whose trimmed length may be 0, which are refuted; without comments also for the printed addresses, although splitting at commas is refuted"
  },
  {
   "property": "C129",
   "status": "partial",
   "theorems": [
    "C129_order",
    "C129_no_holes",
    "C129_integers",
    "C129_floats_order",
    "C129_floats_no_holes",
    "C129_strict_refuted",
    "C129_long_exponent_refuted",
    "C129_outside_refuted"
   ],
   "note": "proved for readable texts, all floats and all integer texts; that different amounts stay different is refuted (rounding), as is the order for texts of more than 65000 bytes with exponents of 65536 or more"
  },
  {
   "property": "C130",
   "status": "partial",
   "theorems": [
    "C130_texts",
    "C130_ip",
    "C130_names",
    "C130_email_partial",
    "C130_email_quoted_refuted",
    "C130_email_absolute_refuted",
    "C130_email_comment_refuted",
    "C130_base64_refuted",
    "C130_separator_refuted"
   ],
   "note": "proved for numbers, words, base32, base64_url, addresses and names; of e-mail addresses only that those without comments and quotes do not lead above the directory; that e-mail addresses and base64 texts stay in their directory is refuted"
  },
  {
   "property": "C131",
   "status": "proved",
   "theorems": [
    "C131_order",
    "C131_protocols",
    "C131_kinds",
    "C131_hash",
    "C131_spelling",
    "C131_display_order_refuted",
    "C131_display_key_refuted"
   ],
   "note": "Order, equality and hashing of hosts and protocols are the derived impls as the language defines them; core's order of strings and of addresses is modelled. Simplified: the bytes of an address are fed to the hasher highest first. The two refuted statements are about the printed texts."
  },
  {
   "property": "C132",
   "status": "partial",
   "theorems": [
    "C132_texts",
    "C132_ip",
    "C132_names",
    "C132_urls",
    "C132_email_partial",
    "C132_email_refuted",
    "C132_email_quoted_refuted",
    "C132_base64_refuted"
   ],
   "note": "Missing from the claim: e-mail addresses, base64 and base64_url, for which it is refuted; the theorems say exactly how far they go. The laws assumed of to_ascii are idna_ldh, idna_laws and idna_hyphens, all proved of the fragment idna_ascii."
  },
  {
   "property": "C133",
   "status": "partial",
   "theorems": [
    "C133_order",
    "C133_traits",
    "C133_own_partial",
    "C133_own_lacks",
    "C133_own_refuted",
    "C133_debug_refuted"
   ],
   "note": "Missing: comparison, order, hashing and copying with the error types of the crate, which is refuted (C133_own_lacks says for all of them). The impls are modelled by their bounds, comparison also by what it does; hashing of a Result is not modelled."
  },
  {
   "property": "C134",
   "status": "partial",
   "theorems": [
    "C134_texts",
    "C134_ip",
    "C134_names",
    "C134_email_partial",
    "C134_plus_refuted",
    "C134_email_refuted",
    "C134_email_tail_refuted",
    "C134_email_other_refuted"
   ],
   "note": "Proved for integers, numbers, words, base texts, identifiers, addresses, domains and hosts (exactly: the plus sign is the only obstacle). e-mail: for local parts and comments without # % & +, and for the text itself when nothing is behind the domain; the unrestricted claims are refuted with witnesses."
  },
  {
   "property": "C135",
   "status": "partial",
   "theorems": [
    "C135_ip",
    "C135_host_partial",
    "C135_host_order_refuted",
    "C135_domain",
    "C135_email_partial",
    "C135_email_order_refuted",
    "C135_line_bytes",
    "C135_line_chars",
    "C135_line_trimmed",
    "C135_line_order_refuted",
    "C135_http"
   ],
   "note": "ip, ipv4, ipv6, domain, host, email, http_url, http_ftp_url, and line and text except trimmed_min together with max, where the order goes by position; refuted for host, where the place of the rule on labels depends on the kind of host, for email, where that of the rule on comments depends on where the comment stands, and for line and text, where it depends on what is counted"
  }
 ]
}