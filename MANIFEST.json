{
 "claims": [
  {
   "property": "C01",
   "status": "proved",
   "theorems": [
    "C01_signed_codec_exact_and_shortest",
    "C01_signed_decoder_is_twos_complement",
    "C01_py2_signed_codec_refuted",
    "C01_py2_decoder_agrees"
   ],
   "note": "Python 3 branch of util: full statement. The Python 2 branch is refuted (-65535)."
  },
  {
   "property": "C02",
   "status": "proved",
   "theorems": [
    "C02_fixed_width",
    "C02_unsigned_shortest",
    "C02_negative_unsigned_overflows",
    "C02_signed_fixed_width",
    "C02_py2_unsigned_agrees",
    "C02_py2_signed_fixed_width_refuted",
    "C02_fill_width"
   ],
   "note": "Python 3 branch of util: full statement; Python 2 agrees on unsigned values and is refuted for negative fixed-width ones."
  },
  {
   "property": "C03",
   "status": "proved",
   "theorems": [
    "C03_emit_parse_roundtrip",
    "C03_emit_rejects_bad_arguments"
   ],
   "note": "for contents shorter than 2^1008 octets, the limit of BER length octets"
  },
  {
   "property": "C04",
   "status": "proved",
   "theorems": [
    "C04_parse_returns_consumed_bytes"
   ],
   "note": "full statement"
  },
  {
   "property": "C05",
   "status": "proved",
   "theorems": [
    "C05_self_delimiting",
    "C05_strict_iff_no_trailing_data"
   ],
   "note": "full statement"
  },
  {
   "property": "C06",
   "status": "proved",
   "theorems": [
    "C06_parse_total",
    "C06_peek_total",
    "C06_parse_accepts_exactly_ber",
    "C06_nesting_limit"
   ],
   "note": "full statement; acceptance is characterised exactly by an X.690 grammar and the nesting limit is tight"
  },
  {
   "property": "C07",
   "status": "proved",
   "theorems": [
    "C07_emitted_header_minimal"
   ],
   "note": "for contents shorter than 2^1008 octets"
  },
  {
   "property": "C08",
   "status": "proved",
   "theorems": [
    "C08_truncation_detected"
   ],
   "note": "full statement"
  },
  {
   "property": "C09",
   "status": "proved",
   "theorems": [
    "C09_stream_splits",
    "C09_emitted_stream_splits"
   ],
   "note": "full statement, for emitted values and for any accepted BER encodings"
  },
  {
   "property": "C10",
   "status": "proved",
   "theorems": [
    "C10_integer_roundtrip",
    "C10_same_bytes_iff_same_value",
    "C10_any_contents"
   ],
   "note": "full statement, for every tagging; encodings shorter than 2^1008 octets"
  },
  {
   "property": "C11",
   "status": "proved",
   "theorems": [
    "C11_oid_roundtrip",
    "C11_oid_encoding_injective"
   ],
   "note": "full statement: exact base-128 octets, round trip and injectivity"
  },
  {
   "property": "C12",
   "status": "partial",
   "theorems": [
    "C12_invalid_oid_accepted_refuted",
    "C12_illegal_first_arcs_rejected_partial",
    "C12_only_value_error_partial",
    "C12_non_numeric_arc_rejected_partial"
   ],
   "note": "REFUTED: '1' and '1.2.-3' are accepted. Proved: illegal first/second arcs and non-numeric arcs raise ValueError, and nothing else is raised."
  },
  {
   "property": "C13",
   "status": "partial",
   "theorems": [
    "C13_oid_contents_not_injective_refuted",
    "C13_well_formed_injective_partial",
    "C13_well_formed_reencodes_partial"
   ],
   "note": "REFUTED: padded and truncated sub-identifiers collide. Proved: injective and re-encodable on well-formed contents."
  },
  {
   "property": "C14",
   "status": "proved",
   "theorems": [
    "C14_bitstring_roundtrip",
    "C14_bitstring_injective",
    "C14_bitstring_decode_total"
   ],
   "note": "full statement, bits given as booleans; decoding of arbitrary contents characterised"
  },
  {
   "property": "C15",
   "status": "proved",
   "theorems": [
    "C15_named_roundtrip",
    "C15_depends_only_on_the_set"
   ],
   "note": "full statement for every map with distinct non-negative positions"
  },
  {
   "property": "C16",
   "status": "proved",
   "theorems": [
    "C16_octet_bit_string_roundtrip",
    "C16_integer_bit_string_roundtrip",
    "C16_negative_rejected",
    "C16_integer_octet_string_roundtrip",
    "C16_octet_bit_string_view"
   ],
   "note": "content octets level; the object-level histories are C45"
  },
  {
   "property": "C17",
   "status": "proved",
   "theorems": [
    "C17_segments_read_as_joined",
    "C17_segments_native",
    "C17_unused_bits_rejected",
    "C17_only_segments"
   ],
   "note": "full statement for every constructable class without explicit tags of its own, nesting up to the parser's limit; an empty OctetBitString (no segments) raises IndexError, see C52"
  },
  {
   "property": "C18",
   "status": "proved",
   "theorems": [
    "C18_string_roundtrip",
    "C18_encoding_injective",
    "C18_decoding_canonical"
   ],
   "note": "Python's latin1/ascii/UTF codecs are modelled after the Unicode standard, teletex from the table in the source"
  },
  {
   "property": "C19",
   "status": "proved",
   "theorems": [
    "C19_calendar_is_gregorian",
    "C19_utctime_roundtrip",
    "C19_naive_rejected"
   ],
   "note": "full statement; the datetime module is modelled by a proleptic Gregorian calendar proved to follow the day/month/year rules"
  },
  {
   "property": "C20",
   "status": "proved",
   "theorems": [
    "C20_gentime_roundtrip",
    "C20_unpadded_year_refuted"
   ],
   "note": "full statement for both readings of strftime('%Y'); years 1..999 are refuted where the C library does not pad"
  },
  {
   "property": "C21",
   "status": "partial",
   "theorems": [
    "C21_tagging_roundtrip",
    "C21_other_tagging_rejected",
    "C21_implicit_in_explicit_class_refuted",
    "C21_both_tags_refuted"
   ],
   "note": "REFUTED for an implicit tag on a class that has its own explicit tags, and for an explicit and an implicit tag given together (the implicit one is ignored). Proved for every other combination, and rejection of every different tagging."
  },
  {
   "property": "C22",
   "status": "partial",
   "theorems": [
    "C22_structures",
    "C22_ber_kept",
    "C22_choice_refuted",
    "C22_load_dump_partial",
    "C22_length_80_refuted"
   ],
   "note": "REFUTED for definite lengths whose last octet is 0x80, also below a choice, where the result cannot be loaded again. Proved otherwise: for primitives and structures from any accepted octets exactly when each explicit wrapper holds one value, for choices from any BER encoding."
  },
  {
   "property": "C23",
   "status": "partial",
   "theorems": [
    "C23_structures",
    "C23_indefinite",
    "C23_unknown_elements_lost_refuted",
    "C23_forced_dump_partial",
    "C23_depends_on_value_partial",
    "C23_octet_bit_string_refuted",
    "C23_integer_bit_string_refuted",
    "C23_unnamed_bit_refuted",
    "C23_null_refuted",
    "C23_readable_but_not_dumpable_refuted"
   ],
   "note": "REFUTED for OctetBitString, IntegerBitString, named bits without a name, Null, some times, and sequences with elements the schema does not know. Proved for every other primitive class and every value in the domain of the class, and for structures from any BER encoding, after any reads."
  },
  {
   "property": "C24",
   "status": "partial",
   "theorems": [
    "C24_roundtrip",
    "C24_load",
    "C24_strict",
    "C24_one_value_per_encoding",
    "C24_empty_dict_refuted",
    "C24_unknown_keys"
   ],
   "note": "REFUTED only for the empty dict given for a sequence whose fields are all optional. Proved for every other value and every schema of primitives, Sequence, SequenceOf, SetOf, Choice and tags (a choice under at most one explicit tag, optional fields without class-level explicit tags); Set is C48."
  },
  {
   "property": "C25",
   "status": "partial",
   "theorems": [
    "C25_not_encoded",
    "C25_absent_reads_default",
    "C25_encoding_lacks_field",
    "C25_default_leaks_refuted"
   ],
   "note": "REFUTED when the default is itself a sequence with optional fields. Proved otherwise."
  },
  {
   "property": "C26",
   "status": "proved",
   "theorems": [
    "C26_constructed_list",
    "C26_loaded_list",
    "C26_constructed_set"
   ],
   "note": "full statement, non-negative indices; constructed and DER-loaded SequenceOf, and constructed SetOf"
  },
  {
   "property": "C27",
   "status": "proved",
   "theorems": [
    "C27_order_independent"
   ],
   "note": "full statement"
  },
  {
   "property": "C28",
   "status": "partial",
   "theorems": [
    "C28_selects_by_tag",
    "C28_refuses_other_tags",
    "C28_constructed",
    "C28_two_explicit_tags_refuted",
    "C28_outdated_length_refuted"
   ],
   "note": "REFUTED for a choice under two explicit tags and for the length of the explicit tag after a change. Proved otherwise."
  },
  {
   "property": "C29",
   "status": "partial",
   "theorems": [
    "C29_any_encoding",
    "C29_ber_kept",
    "C29_structured_default_refuted",
    "C29_choice_refuted",
    "C29_containers",
    "C29_primitive_reads_partial"
   ],
   "note": "REFUTED for fields with structured defaults that are absent, and for dump(force=True) of what a choice holds. Proved otherwise: primitives; structures from DER after all reads; structures from any accepted octets whose headers do not end in 0x80, whether the reads succeed or not, for dump(force=True) of inner parts too."
  },
  {
   "property": "C30",
   "status": "partial",
   "theorems": [
    "C30_any_history",
    "C30_any_part_partial",
    "C30_dump_of_part_hides_change_refuted",
    "C30_set_of_primitive_unnoticed_refuted",
    "C30_change_below_choice_unnoticed_refuted"
   ],
   "note": "REFUTED for dump() without force (dump of a part hides its change, set() of a primitive and changes below a choice go unnoticed). Proved for dump(force=True) after any history, and for dump() as long as none of these happened."
  },
  {
   "property": "C31",
   "status": "partial",
   "theorems": [
    "C31_equivalence",
    "C31_contents",
    "C31_values_partial",
    "C31_equal_but_different_refuted"
   ],
   "note": "REFUTED: objects of one class compare equal although their values differ. Proved: equivalence relation, decided by contents and class tag, and by the value for objects assigned by the program."
  },
  {
   "property": "C32",
   "status": "proved",
   "theorems": [
    "C32_armor_total",
    "C32_pem_roundtrip",
    "C32_detect",
    "C32_pem_shape"
   ],
   "note": "full statement, plus the shape of the armored text (lines of 64 characters)"
  },
  {
   "property": "C33",
   "status": "proved",
   "theorems": [
    "C33_pem_multiple",
    "C33_pem_first",
    "C33_pem_first_of_any",
    "C33_pem_none",
    "C33_pem_sound"
   ],
   "note": "full statement, plus soundness: every block returned stands in the text between its BEGIN line and a line of dashes"
  },
  {
   "property": "C34",
   "status": "partial",
   "theorems": [
    "C34_round_trip",
    "C34_set_exact",
    "C34_native_of_mask",
    "C34_native_of_other_sizes",
    "C34_read_loaded",
    "C34_read_empty",
    "C34_store_then_read",
    "C34_other_masks_refuted",
    "C34_native_not_injective_refuted",
    "C34_with_shim_refuted"
   ],
   "note": "proved for every address and prefix length on any platform whose inet_pton reads what its inet_ntop writes. REFUTED for masks that are not a run of ones, and with the functions of _inet.py."
  },
  {
   "property": "C35",
   "status": "partial",
   "theorems": [
    "C35_ipv4_round_trip",
    "C35_ipv6_canonical",
    "C35_ntop_injective",
    "C35_text_denotes_one",
    "C35_ipv6_round_trip_partial",
    "C35_pton_reads_text",
    "C35_letter_case",
    "C35_ntop_sizes",
    "C35_pton_size",
    "C35_ipv6_round_trip_refuted",
    "C35_network_refuted"
   ],
   "note": "proved: IPv4, injectivity, the text form of RFC 5952, and reading back exactly the texts that neither start nor end in '::'. REFUTED: '::1', '2001:db8::' are refused."
  },
  {
   "property": "C36",
   "status": "partial",
   "theorems": [
    "C36_reflexive_partial",
    "C36_symmetric",
    "C36_transitive",
    "C36_hashable_partial",
    "C36_order_partial",
    "C36_prepared_text",
    "C36_case_and_spaces",
    "C36_case",
    "C36_reflexive_refuted",
    "C36_replacement_refuted",
    "C36_hashable_refuted",
    "C36_order_refuted",
    "C36_prepared_or_refused"
   ],
   "note": "proved for every version of the Unicode tables: symmetric, transitive, reflexive on names that can be prepared, equal names without booleans have equal hashable, order within an RDN without repeated types, case and spaces. REFUTED: comparison raises for values that cannot be prepared; INTEGER 1 equals BOOLEAN TRUE with another hashable; the order of attributes of one type matters."
  },
  {
   "property": "C37",
   "status": "partial",
   "theorems": [
    "C37_partial",
    "C37_attribute",
    "C37_refuted"
   ],
   "note": "proved, both ways, when no RDN of one of the names repeats a type. REFUTED: of several values of one type only the last is compared."
  },
  {
   "property": "C38",
   "status": "partial",
   "theorems": [
    "C38_wildcard_shape",
    "C38_names_exact_partial",
    "C38_listed_names_match",
    "C38_no_names",
    "C38_pattern_characters_refuted",
    "C38_covered_not_found_refuted",
    "C38_line_feed_refuted",
    "C38_unencodable_refuted"
   ],
   "note": "proved for every name and certificate: the labels after the first are equal, and a star stands once, in the first label, outside A-labels; with listed names of letters, digits, hyphens and underscores, and hosts without a line feed, a host matches exactly when RFC 6125 says so. REFUTED: other characters of the first listed label are read as a regular expression; a line feed at the end of the host's first label is ignored; a listed name that cannot be encoded makes every check raise."
  },
  {
   "property": "C39",
   "status": "partial",
   "theorems": [
    "C39_coordinates_partial",
    "C39_reloaded_partial",
    "C39_accepted_partial",
    "C39_exact_logarithm_partial",
    "C39_to_coords_partial",
    "C39_zero_refuted",
    "C39_one_refuted",
    "C39_power_refuted",
    "C39_width_refuted",
    "C39_malformed_refuted"
   ],
   "note": "proved for whatever the floating point logarithm returns: accepted pairs come back, also after dump and load; other first octets are refused. REFUTED: zero, (1, 1) and powers of 256 are refused, the width is that of the point and not of the field, points with an even number of octets are accepted."
  },
  {
   "property": "C40",
   "status": "proved",
   "theorems": [
    "C40_constructed",
    "C40_loaded",
    "C40_to_p1363",
    "C40_and_back",
    "C40_from_p1363",
    "C40_any_octets"
   ],
   "note": "for signatures constructed, loaded from DER and converted"
  },
  {
   "property": "C41",
   "status": "partial",
   "theorems": [
    "C41_user_map_both_ways",
    "C41_user_map_other_texts",
    "C41_last_key_is_written",
    "C41_user_map_reencodes",
    "C41_integer_map_both_ways",
    "C41_enumerated_map_both_ways",
    "C41_library_maps",
    "C41_library_maps_with_imports",
    "C41_library_numbers",
    "C41_register_both_ways",
    "C41_every_curve_has_a_size",
    "C41_any_algorithm_reads_partial",
    "C41_any_algorithm_unusable",
    "C41_any_algorithm_refuted",
    "C41_late_entry_refuted",
    "C41_import_renames_refuted",
    "C41_subclass_map_refuted",
    "C41_name_is_key_refuted",
    "C41_second_name_refuted",
    "C41_unmap_not_an_oid_refuted"
   ],
   "note": "proved for all user maps in which no name is a key and no name occurs twice, and for every OID and number map of the library, also with the entries that pdf and tsp add when they are imported first; with aliases the last key is written; register keeps the maps consistent; every named curve has a size. The OID that AnyAlgorithmId reads is proved only for reading (C41_any_algorithm_reads_partial). REFUTED: AnyAlgorithmId can never be set (TypeError); entries added after first use can be read but not written; importing pdf renames 1.2.840.113583.1.1.5; a subclass with its own map writes by the map of its parent; a name that is also a key; unmap returns texts that are no OIDs."
  },
  {
   "property": "C42",
   "status": "partial",
   "theorems": [
    "C42_every_identifier",
    "C42_scheme_and_digest",
    "C42_unknown_identifiers",
    "C42_pss_without_parameters_refuted",
    "C42_undocumented_digest_refuted"
   ],
   "note": "proved for every registered identifier against a list written from the standards, and for all unknown identifiers. REFUTED for RSASSA-PSS only: without parameters the digest raises TypeError, and its digest may be one the documentation does not list."
  },
  {
   "property": "C43",
   "status": "partial",
   "theorems": [
    "C43_order_is_time_line",
    "C43_naive_and_aware_do_not_mix",
    "C43_add_then_diff",
    "C43_add_then_sub_partial",
    "C43_add_total",
    "C43_add_then_sub_refuted",
    "C43_far_sum_refuted",
    "C43_extended_date_order"
   ],
   "note": "order, equality, difference and a+d-a proved in full; (a+d)-d = a refuted when the sum leaves year 0, and sums in the years 8000..9999 are refused"
  },
  {
   "property": "C44",
   "status": "partial",
   "theorems": [
    "C44_failed_set_partial",
    "C44_dump_after_failed_set_partial",
    "C44_native_changes_refuted",
    "C44_oid_dump_changes_refuted"
   ],
   "note": "REFUTED for character strings, named bit strings, fixed-width integers and object identifiers. Proved for every other class."
  },
  {
   "property": "C45",
   "status": "partial",
   "theorems": [
    "C45_set_replaces_partial",
    "C45_dotted_refuted",
    "C45_null_refuted"
   ],
   "note": "REFUTED for .dotted and Null. Proved for native and dump after any history, from any reachable state."
  },
  {
   "property": "C46",
   "status": "partial",
   "theorems": [
    "C46_wrapper_must_start_with_value_partial",
    "C46_extra_value_accepted_refuted"
   ],
   "note": "REFUTED: data after the value is ignored. Proved: the wrapper must start with a value, and dump reproduces the input exactly when there is nothing else."
  },
  {
   "property": "C47",
   "status": "partial",
   "theorems": [
    "C47_structures_partial",
    "C47_choice_refuses_indefinite_refuted"
   ],
   "note": "REFUTED: Choice refuses indefinite lengths. Proved: structures load from all BER encodings, in which every other length may be indefinite."
  },
  {
   "property": "C48",
   "status": "partial",
   "theorems": [
    "C48_absent_member_refuted",
    "C48_forced_dump_of_loaded_set_refuted",
    "C48_unknown_member_partial",
    "C48_made_partial",
    "C48_encoding_unique",
    "C48_loaded_partial",
    "C48_loaded_ber_partial",
    "C48_order_of_classes_refuted",
    "C48_order_of_explicit_tags_refuted",
    "C48_length_ending_in_80_refuted",
    "C48_assigned_before_read_refuted"
   ],
   "note": "REFUTED: absent members, forced dumps of loaded sets, a length ending in 0x80, and assigning to a loaded set before reading it raise exceptions; members of different tag classes or with explicit tags are sorted wrongly. Proved for sets whose members are not choices, where every member has a value and sorting by the number of the inner tag is right: made from a dict, loaded from DER or BER with the members in any order, and through any program (after reading once, if loaded), natives, dumps and lengths anywhere inside agree with the value, and the encoding is the DER one, which is unique; unknown members are refused."
  },
  {
   "property": "C49",
   "status": "partial",
   "theorems": [
    "C49_escapes",
    "C49_quote_keeps_meaning_partial",
    "C49_quoted_is_legal",
    "C49_unquote_keeps_meaning_partial",
    "C49_round_trip_partial",
    "C49_uri_iri_uri_partial",
    "C49_percent_lost_refuted",
    "C49_stray_percent_refuted",
    "C49_null_refuted",
    "C49_control_refuted",
    "C49_escaped_reserved_refuted",
    "C49_user_colon_refuted"
   ],
   "note": "proved: quoting keeps octets and separators of texts without escapes and of texts whose escapes are neither the percent sign nor null; the result holds only characters legal in that part, for every text; unquoting keeps octets and the separators of paths and queries; quoting then unquoting a text without escapes gives it back; a URI part shown and turned back means the same. REFUTED outside these limits: %2541 becomes %41 and then A; a stray percent sign takes in the digits of the next escape; a null beside an escape raises IndexError; U+001A in a path becomes a slash; escaped reserved characters other than / & = become literal; a colon in a user name comes back as %3a."
  },
  {
   "property": "C50",
   "status": "partial",
   "theorems": [
    "C50_answers",
    "C50_readable_or_error",
    "C50_errors",
    "C50_accessors_match",
    "C50_stale_refuted",
    "C50_leftover_refuted",
    "C50_shared_set_refuted",
    "C50_no_response_refuted"
   ],
   "note": "proved for all seven classes and all lists, after any number of reads: critical set exact and without repetition, last value of each identifier, and a first error is raised by every read. REFUTED when the extensions are replaced or the returned set is changed after a read, and for OCSP responses without response bytes, whose accessors raise TypeError."
  },
  {
   "property": "C51",
   "status": "partial",
   "theorems": [
    "C51_unknown_names_silently_dropped_refuted"
   ],
   "note": "REFUTED: a name outside the map is silently dropped from the encoding."
  },
  {
   "property": "C52",
   "status": "partial",
   "theorems": [
    "C52_read_raises_ValueError_partial",
    "C52_unexpected_exceptions_refuted",
    "C52_gentime_overflow_refuted"
   ],
   "note": "REFUTED for empty bit strings, unknown enumerated values, Real and other raw classes, GeneralizedTime rounding. Proved for the other classes."
  },
  {
   "property": "C53",
   "status": "partial",
   "theorems": [
    "C53_trailing_newline_refuted"
   ],
   "note": "REFUTED: a trailing line feed is accepted"
  },
  {
   "property": "C54",
   "status": "proved",
   "theorems": [
    "C54_load_total"
   ],
   "note": "full statement"
  },
  {
   "property": "C55",
   "status": "proved",
   "theorems": [
    "C55_constructed_history",
    "C55_loaded_history"
   ],
   "note": "full statement"
  },
  {
   "property": "C56",
   "status": "partial",
   "theorems": [
    "C56_container_copy_partial",
    "C56_container_retag_partial",
    "C56_copy_keeps_old_native_refuted",
    "C56_copy_after_partial",
    "C56_ber_copy_after_partial",
    "C56_copied_native",
    "C56_copy_and_retag_partial",
    "C56_copy_loses_width_refuted"
   ],
   "note": "REFUTED for the width of an IntegerOctetString, which the copy forgets, and for copies of structures whose native was read. Proved for primitives without a width after any history, and for structures after any history whose contents can be relied upon (CopySpec.copies_from): the copy and the retagged copy then behave as the value the history led to, their natives provided that the native of the original was never read. Not covered: copies of an object whose own contents are stale, and of Set."
  },
  {
   "property": "C57",
   "status": "proved",
   "theorems": [
    "C57_width_history"
   ],
   "note": "full statement"
  },
  {
   "property": "C58",
   "status": "proved",
   "theorems": [
    "C58_utctime_texts",
    "C58_gentime_texts"
   ],
   "note": "full statement"
  },
  {
   "property": "C59",
   "status": "partial",
   "theorems": [
    "C59_ber_reads_agree_partial",
    "C59_reads_agree_partial",
    "C59_truncated_after_error_refuted"
   ],
   "note": "REFUTED after an exception. Proved for structures loaded from any BER encoding."
  },
  {
   "property": "C60",
   "status": "proved",
   "theorems": [
    "C60_unused_bits"
   ],
   "note": "full statement for encodings that are not segmented"
  },
  {
   "property": "C61",
   "status": "partial",
   "theorems": [
    "C61_truncated_partial",
    "C61_base64_partial",
    "C61_broken_block_partial",
    "C61_truncated_refuted",
    "C61_missing_end_refuted",
    "C61_damaged_body_refuted",
    "C61_label_refuted"
   ],
   "note": "REFUTED: a truncated second block is dropped, a missing last line swallows the next block, characters outside base64 are skipped, armor accepts labels unarmor cannot read. Proved: a single block cut off anywhere before its last line is refused."
  },
  {
   "property": "C62",
   "status": "proved",
   "theorems": [
    "C62_line_ends",
    "C62_crlf"
   ],
   "note": "full statement"
  },
  {
   "property": "C63",
   "status": "partial",
   "theorems": [
    "C63_ipv4_errors",
    "C63_set_errors_partial",
    "C63_set_errors_of_platform",
    "C63_contents_kept_partial",
    "C63_struct_error_refuted",
    "C63_refused_text_kept_refuted",
    "C63_lenient_refuted"
   ],
   "note": "REFUTED: struct.error for IPv6 texts, the refused text stays visible as native, lenient integer forms are accepted. Proved: the contents are kept, IPv4 errors are ValueError."
  },
  {
   "property": "C64",
   "status": "proved",
   "theorems": [
    "C64_loaded_object_complete",
    "C64_delete_refused",
    "C64_none_refused",
    "C64_dump_refused",
    "C64_made_without_field"
   ],
   "note": "The invariant is about the loaded object itself; objects a program puts into it may lack required fields, they are refused by dump. Storing None in a required Null field is storing its value."
  },
  {
   "property": "C65",
   "status": "partial",
   "theorems": [
    "C65_partial",
    "C65_drops_refuted",
    "C65_keeps_refuted"
   ],
   "note": "proved for texts without U+FE00 to U+FEFE and U+FF00. REFUTED: the range U+FE0F to U+FF00 is removed, Arabic presentation forms included, and the variation selectors U+FE00 to U+FE0E stay."
  },
  {
   "property": "C66",
   "status": "partial",
   "theorems": [
    "C66_partial",
    "C66_bytes_refuted",
    "C66_repeated_refuted",
    "C66_empty_refuted"
   ],
   "note": "proved for text values, RDNs that are not empty and repeat no type. REFUTED: byte strings may hold the separators; repeated attributes and empty RDNs leave no trace."
  },
  {
   "property": "C67",
   "status": "partial",
   "theorems": [
    "C67_partial",
    "C67_refuted"
   ],
   "note": "proved for objects not compared before. REFUTED: the prepared value is kept when a new value is assigned."
  },
  {
   "property": "C68",
   "status": "partial",
   "theorems": [
    "C68_order_partial",
    "C68_order_refuted",
    "C68_build",
    "C68_accepts",
    "C68_unknown",
    "C68_native",
    "C68_human",
    "C68_preferred_order_table",
    "C68_labels_table",
    "C68_every_type_has_a_label"
   ],
   "note": "proved: one RDN per entry in the preferred order, unknown attributes refused, native and human_friendly complete. REFUTED: a dict naming one type by word and by OID gives a name that depends on the order of the dict."
  },
  {
   "property": "C69",
   "status": "partial",
   "theorems": [
    "C69_alternative_names",
    "C69_order",
    "C69_common_names",
    "C69_line_feed_refuted",
    "C69_empty_extension_refuted"
   ],
   "note": "proved for the extension and for common names without a final line feed. REFUTED: an empty extension counts as absent; a common name may end in a line feed."
  },
  {
   "property": "C70",
   "status": "partial",
   "theorems": [
    "C70_addresses_exact_partial",
    "C70_names_do_not_matter",
    "C70_no_addresses",
    "C70_mapped_refuted",
    "C70_network_refuted",
    "C70_other_size_refuted",
    "C70_bad_address_refuted"
   ],
   "note": "proved for certificates that list addresses of 4 or 16 octets, on platforms that write dots only in IPv4 addresses. REFUTED: a listed IPv4-mapped address, a network or an entry of another size makes the check raise, as does a dotted text that is no address."
  },
  {
   "property": "C71",
   "status": "partial",
   "theorems": [
    "C71_bound_types_reachable_partial",
    "C71_one_type_per_name",
    "C71_csp_name_refuted"
   ],
   "note": "proved for every table but one. REFUTED: microsoft_csp_name of pkcs12.Attribute is the name of no identifier."
  },
  {
   "property": "C72",
   "status": "partial",
   "theorems": [
    "C72_every_identifier",
    "C72_ciphers",
    "C72_rc4_partial",
    "C72_rc2_partial",
    "C72_rc2_other_versions",
    "C72_rc5",
    "C72_pbes2_cipher",
    "C72_pbkdf2",
    "C72_pbkdf2_other_salt",
    "C72_scrypt_partial",
    "C72_password_based",
    "C72_iv_partial",
    "C72_unknown_identifiers",
    "C72_rc2_large_key_refuted",
    "C72_rc2_default_refuted",
    "C72_key_error_refuted",
    "C72_stream_mode_refuted",
    "C72_wrap_digest_refuted",
    "C72_salt_of_cipher_refuted",
    "C72_scrypt_salt_refuted",
    "C72_iv_refuted",
    "C72_without_parameters_refuted"
   ],
   "note": "proved against lists written from the standards: AES, DES, triple DES, PBES1, PKCS#12, RC2 with a version below 256 bits, RC5, PBES2 around any of them with PBKDF2; unknown identifiers raise ValueError. REFUTED: RC2 key lengths from 256 bits on and by default, KeyError for RC4 and RSAES, RC4 in CBC mode, a digest called wrap, TypeError for the salt of plain ciphers, AttributeError for the salt of scrypt, no vector for CFB and CCM."
  },
  {
   "property": "C73",
   "status": "partial",
   "theorems": [
    "C73_names_partial",
    "C73_added_names",
    "C73_only_registered_partial",
    "C73_numbers",
    "C73_numbers_written",
    "C73_apple_refuted",
    "C73_microsoft_refuted"
   ],
   "note": "proved for all tables but five entries against a registry written from the standards. REFUTED: three Apple policies are entered under 1.2.840.113625 instead of Apple's 1.2.840.113635; Microsoft's identifier of the provider name is called microsoft_local_machine_keyset."
  },
  {
   "property": "C74",
   "status": "partial",
   "theorems": [
    "C74_explicit_partial",
    "C74_named_sizes",
    "C74_no_size",
    "C74_private_partial",
    "C74_forced_dump_partial",
    "C74_dump_partial",
    "C74_outcome",
    "C74_loaded_same",
    "C74_loaded_partial",
    "C74_specified_refuted",
    "C74_second_key_refuted",
    "C74_loaded_size_refuted",
    "C74_loaded_forced_refuted",
    "C74_copy_refuted",
    "C74_by_index_refuted",
    "C74_resize_stale_refuted",
    "C74_refused_kept_refuted"
   ],
   "note": "proved for all named curves, for all sequences of assignments by name, dumps and resizes of a new key and of a loaded key that is given its parameters, and which private keys are refused. and the size of explicit parameters whose order is away from powers of two. REFUTED: the size of explicit parameters is computed from the order rounded to 53 bits; a second, longer key is refused; a loaded key or a copy loses its length when changed or dumped anew; assignment by index skips the sizing; set_key_size after a dump is not dumped; a refused key stays in the object."
  },
  {
   "property": "C75",
   "status": "partial",
   "theorems": [
    "C75_info_partial",
    "C75_wrap",
    "C75_wrap_needs_parameters",
    "C75_stale_octets_refuted",
    "C75_changed_curve_refuted"
   ],
   "note": "proved for wrap, for dump(force=True) and for keys that had the length before. REFUTED: the octet string is built before the key is resized, so dump() writes the short key, also when the curve of the algorithm is changed later."
  },
  {
   "property": "C76",
   "status": "partial",
   "theorems": [
    "C76_public_partial",
    "C76_private_partial",
    "C76_named_algorithms",
    "C76_reads_agree_partial",
    "C76_public_accepts_partial",
    "C76_private_accepts_partial",
    "C76_unknown_refuted",
    "C76_extra_part_refuted"
   ],
   "note": "proved for every algorithm the library names, for all sequences of reads, given how the parts are built; reads agree whenever the failure is a ValueError or TypeError. REFUTED: with an algorithm the library has no name for the first access raises KeyError, later ones return the algorithm and raise IndexError, and even the plain dump fails then; parts after the last field are accepted and lost."
  },
  {
   "property": "C77",
   "status": "partial",
   "theorems": [
    "C77_rsa_partial",
    "C77_dsa_partial",
    "C77_point_partial",
    "C77_hash_algo_partial",
    "C77_other_accessors",
    "C77_q_byte_size",
    "C77_rounded_refuted",
    "C77_ec_private_refuted",
    "C77_compressed_refuted",
    "C77_no_size_refuted",
    "C77_inherited_refuted",
    "C77_stale_refuted"
   ],
   "note": "proved, for a logarithm that is accurate away from powers of two, for moduli and primes away from powers of two and for uncompressed points, and for all other accessors. REFUTED: the logarithm is taken of a number rounded to 53 bits; the size of an EC private key depends on the secret number; compressed points give half the size; other algorithms raise UnboundLocalError; DSA keys with inherited parameters raise TypeError; the sizes are stale after an assignment."
  },
  {
   "property": "C78",
   "status": "partial",
   "theorems": [
    "C78_null_partial",
    "C78_history_partial",
    "C78_absent_partial",
    "C78_old_signatures_refuted",
    "C78_left_over_refuted",
    "C78_other_parameters_refuted",
    "C78_by_index_refuted",
    "C78_order_refuted",
    "C78_wrap_pss_refuted",
    "C78_own_parameters",
    "C78_refused_algorithm"
   ],
   "note": "proved for the six classes that have names, after all histories of the class, for assignment by name, and that by-name histories never lose the parameters. REFUTED: signatures with MD2, MD5 and SHA-1 get no NULL; parameters stay when the algorithm changes; assignment by index and None bypass it; parameters before the algorithm raise AttributeError; wrap with rsassa_pss always raises TypeError."
  },
  {
   "property": "C79",
   "status": "partial",
   "theorems": [
    "C79_equal_partial",
    "C79_equivalence",
    "C79_set",
    "C79_case_refuted",
    "C79_same_octets_refuted"
   ],
   "note": "proved for ASCII names without A-labels; equivalence for all names. REFUTED: the prefix of A-labels is seen in small letters only, so XN--... and xn--... are unequal; a name that was set is compared as given, so objects with the same octets may be unequal."
  },
  {
   "property": "C80",
   "status": "partial",
   "theorems": [
    "C80_equal_partial",
    "C80_equivalence",
    "C80_round_trip_partial",
    "C80_read_keeps",
    "C80_local_part",
    "C80_not_comparable_refuted",
    "C80_compare_changes_refuted",
    "C80_compare_rewrites_refuted",
    "C80_new_refuted"
   ],
   "note": "proved for ASCII addresses with a host without A-labels; equivalence for all. REFUTED: addresses that can be read but not compared (UnicodeError); the cache is never kept, so each comparison writes the object anew and may change its octets; a new object raises AttributeError and TypeError."
  },
  {
   "property": "C81",
   "status": "partial",
   "theorems": [
    "C81_iri_to_uri_partial",
    "C81_uri_to_iri_partial",
    "C81_round_trip_partial",
    "C81_plain_partial",
    "C81_render_injective",
    "C81_equal_partial",
    "C81_equivalence",
    "C81_blanks",
    "C81_delimiters_refuted",
    "C81_ipv6_refuted",
    "C81_ldap_refuted",
    "C81_slashes_refuted",
    "C81_scheme_refuted",
    "C81_password_refuted",
    "C81_empty_refuted",
    "C81_errors_refuted"
   ],
   "note": "proved for URIs with a scheme in small letters without +, an authority without brackets, non-empty user names and passwords and, for comparison, parts without escapes. REFUTED: escaped delimiters become delimiters, so URIs with different hosts are equal; brackets of IPv6 addresses are lost and the URI cannot be compared (ValueError); ldap:///... loses its slashes; a + in the scheme is escaped; passwords of an empty user are lost; empty queries are lost."
  },
  {
   "property": "C82",
   "status": "partial",
   "theorems": [
    "C82_equal_partial",
    "C82_kinds",
    "C82_equivalence",
    "C82_other_kinds_refuted"
   ],
   "note": "proved for the values for which C37 and C79 to C81 are proved, and for all addresses and identifiers; equivalence for all values. REFUTED: other_name, x400_address and edi_party_name raise ValueError even against names of another kind."
  },
  {
   "property": "C83",
   "status": "partial",
   "theorems": [
    "C83_url_partial",
    "C83_points_partial",
    "C83_ocsp",
    "C83_crl_partial",
    "C83_url_changes_refuted",
    "C83_twice_refuted",
    "C83_crl_changes_refuted"
   ],
   "note": "proved, for a lower() that works letter by letter, for full names whose URIs can be read and for points with a name. REFUTED: url, issuer_cert_urls, issuer_name and the delta points of a CRL keep an answer before they read, so after an exception they answer None or a part of the list; points with two URIs are listed twice, and with URIs of any scheme."
  },
  {
   "property": "C84",
   "status": "partial",
   "theorems": [
    "C84_reads_agree_partial",
    "C84_meaning",
    "C84_self_signed_partial",
    "C84_serial",
    "C84_authority_partial",
    "C84_empty_key_refuted",
    "C84_signed_changes_refuted",
    "C84_authority_refuted",
    "C84_ca_refuted"
   ],
   "note": "proved for all histories of reads, self_signed unless it raised, and for key identifiers that are not empty. REFUTED: an empty key identifier counts as none; self_signed answers no after it raised; authority_issuer_serial raises AttributeError if the name is not the first and ends in None without a serial number; ca is None without basic constraints."
  },
  {
   "property": "C85",
   "status": "proved",
   "theorems": [
    "C85_history",
    "C85_copy",
    "C85_fromkeys",
    "C85_equal"
   ],
   "note": "proved for all histories; dictionaries are not changed while they are iterated."
  },
  {
   "property": "C86",
   "status": "partial",
   "theorems": [
    "C86_load",
    "C86_one_value",
    "C86_der_is_ber"
   ],
   "note": "proved for the schemas and values of C24; choices that directly hold an indefinite length, segmented strings of definite total length and segments in classes with explicit tags are not read by the library (C47), Null is required in DER."
  },
  {
   "property": "C87",
   "status": "partial",
   "theorems": [
    "C87_octets",
    "C87_looking",
    "C87_set_partial",
    "C87_forced",
    "C87_from_object",
    "C87_copy",
    "C87_set_after_parse_refuted",
    "C87_parse_changes_dump_refuted",
    "C87_change_inside_unnoticed_refuted",
    "C87_empty_bit_string_refuted"
   ],
   "note": "proved for all histories; set() after the string was parsed is refuted, and proved for strings that were not parsed; parsing without a spec is an arbitrary function; spec_params are explicit and implicit tags only; strings in segments have no explicit tag."
  },
  {
   "property": "C88",
   "status": "partial",
   "theorems": [
    "C88_load",
    "C88_values",
    "C88_forced",
    "C88_history",
    "C88_dump",
    "C88_make",
    "C88_copy",
    "C88_child",
    "C88_missing_part_refuted",
    "C88_too_few_refuted"
   ],
   "note": "proved for all classes, octets and histories in which no dump raises; octets that end before the last class load as an object that cannot be dumped (refuted), and so can objects made from too few values."
  },
  {
   "property": "C89",
   "status": "partial",
   "theorems": [
    "C89_parse",
    "C89_implicit",
    "C89_number",
    "C89_implicit_stays",
    "C89_looking_partial",
    "C89_unparsed",
    "C89_object",
    "C89_copy",
    "C89_parse_again_refuted",
    "C89_tags_passed_refuted",
    "C89_dict_changed_refuted",
    "C89_copy_unusable_refuted",
    "C89_tags_lost_refuted"
   ],
   "note": "proved for all histories; parsing again under an explicit tag, explicit tags in the dict passed, copies before parsing and tags of an Any made from an object are refuted; parsing without a spec is an arbitrary function."
  },
  {
   "property": "C90",
   "status": "partial",
   "theorems": [
    "C90_made_partial",
    "C90_loaded_partial",
    "C90_ber_partial",
    "C90_reassigned_refuted",
    "C90_unknown_keys"
   ],
   "note": "proved for all histories that leave the object identifier alone, for tables of classes of C24; missing: identifiers without an entry (an Any as a field), tables of classes that themselves have such a pair, _spec_callbacks. Assigning the identifier afterwards is refuted."
  },
  {
   "property": "C91",
   "status": "partial",
   "theorems": [
    "C91_pickled_partial",
    "C91_ber_pickled_partial",
    "C91_tagged_refuted",
    "C91_lost_change_refuted"
   ],
   "note": "proved for objects without tags given to the object; with such tags the class cannot read what was pickled (refuted), and changes that dump() does not see are lost (refuted). Missing: Set, Any, classes selected by an identifier."
  },
  {
   "property": "C92",
   "status": "partial",
   "theorems": [
    "C92_der_reads",
    "C92_der_octets",
    "C92_ber_reads_partial",
    "C92_sequence_octets",
    "C92_accepted",
    "C92_refused",
    "C92_class_ignored_refuted",
    "C92_set_refuted",
    "C92_set_inside_refuted",
    "C92_segments_refuted",
    "C92_embedded_pdv_refuted",
    "C92_partial_native_refuted",
    "C92_error_again",
    "C92_identifier_kept",
    "C92_enumerated_refuted",
    "C92_relative_oid_refuted",
    "C92_not_der_refuted"
   ],
   "note": "reading is proved; of sets, EmbeddedPdv, Enumerated, Real, RelativeOid and strings in segments of definite total length it is refuted. Missing: changes to primitives found inside, copies, Python's recursion limit."
  },
  {
   "property": "C93",
   "status": "partial",
   "theorems": [
    "C93_structures_partial",
    "C93_covered",
    "C93_bound_partial",
    "C93_country_name_refuted",
    "C93_edi_party_name_refuted",
    "C93_v2form_refuted",
    "C93_required_refuted",
    "C93_optional_refuted",
    "C93_set_of_refuted",
    "C93_type_refuted",
    "C93_open_refuted",
    "C93_extended_attributes_refuted"
   ],
   "note": "decided for every class and binding; 21 classes and five bindings differ and are refuted. The standards are written down by hand in ShapeSpec.v. Not compared: sizes and ranges, the values named numbers stand for, components whose type a method chooses, 49 classes without a standard or compared as bindings."
  },
  {
   "property": "C94",
   "status": "proved",
   "theorems": [
    "C94_covered",
    "C94_types",
    "C94_roundtrip",
    "C94_load",
    "C94_edi_party_name_refuted",
    "C94_ccm_params_refuted",
    "C94_directory_string_refuted"
   ],
   "note": "the classes the container model covers: no Any, ParsableOctetString, Set, method-chosen types or redefined methods. EDIPartyName cannot be used at all and CcmParams refuses the default length; classes with NotReallyTeletexString, whose text can come back changed, are left out."
  },
  {
   "property": "C95",
   "status": "proved",
   "theorems": [
    "C95_reads",
    "C95_one_native",
    "C95_classes",
    "C95_types",
    "C95_identifier_names",
    "C95_number_names",
    "C95_identifiers_partial",
    "C95_keys",
    "C95_names",
    "C95_unknown_algorithm_refuted",
    "C95_v1_attribute_certificate_refuted"
   ],
   "note": "only natives, right after loading; the text of DNSName, URI, EmailAddress and IPAddress is a parameter; Set, Concat, choices with a tag of their own and three ambiguous classes are left out. Five identifiers have a type other than the standard's (C93). Keys of unknown algorithms and DER attribute certificates of version 1 in CertificateChoices are refused."
  },
  {
   "property": "C96",
   "status": "proved",
   "theorems": [
    "C96_forced",
    "C96_same_value",
    "C96_one_encoding",
    "C96_identifiers",
    "C96_defaults_partial",
    "C96_pbkdf2_default_refuted",
    "C96_signing_hash_default_refuted",
    "C96_alias_refuted",
    "C96_any_algorithm_refuted",
    "C96_open_refuted",
    "C96_extra_refuted",
    "C96_teletex_refuted"
   ],
   "note": "dump(force=True) right after loading; what DNSName, URI, EmailAddress and IPAddress write is a parameter; values in an Any, NULL and the class Sequence itself have to be in DER already (refuted otherwise). Two defaults differ from the standards; aliases of identifiers are replaced; AnyAlgorithmIdentifier cannot be written; elements after the last field are dropped."
  },
  {
   "property": "C97",
   "status": "proved",
   "theorems": [
    "C97_written",
    "C97_read_back",
    "C97_order",
    "C97_null_parameters",
    "C97_null_refuted",
    "C97_empty_refuted",
    "C97_any_algorithm_refuted",
    "C97_native_refuted",
    "C97_missing",
    "C97_unknown",
    "C97_status"
   ],
   "note": "What DNSName, URI, EmailAddress and IPAddress write for a text is a parameter; an object inside a value is taken to be made of a Python value with the tags of its place, objects given for an Any are left out, as are old names of fields. A set has its elements in some order and a value that is a default may be shown as the default. An empty dict, an AnyAlgorithmId and the native of a Choice cannot be given (refuted)."
  },
  {
   "property": "C98",
   "status": "partial",
   "theorems": [
    "C98_isoformat",
    "C98_loaded",
    "C98_isoformat_refuted",
    "C98_strftime_partial",
    "C98_strftime_refuted",
    "C98_date",
    "C98_replace",
    "C98_date_replace",
    "C98_astimezone",
    "C98_astimezone_back_refuted",
    "C98_timezone",
    "C98_create_timezone",
    "C98_timestamp_partial",
    "C98_timestamp_refuted"
   ],
   "note": "isoformat, str and date proved for offsets of whole minutes, which all times read by the library have; strftime for the directives of C and Python whose form is not left to the locale, but for the ISO year of 1 and 2 January; replace, astimezone, zones in full; timestamp exact for whole seconds, otherwise within four microseconds and in order. REFUTED: offsets with seconds are rounded, so that different times have one text; %G on 1 January gives 1999; a time that astimezone brought to year 1 cannot be brought back; times a microsecond apart may have one time stamp. Naive times are left out of astimezone and timestamp, where Python asks the system for its zone."
  },
  {
   "property": "C99",
   "status": "proved",
   "theorems": [
    "C99_reading",
    "C99_length",
    "C99_item",
    "C99_slice",
    "C99_again",
    "C99_distinct",
    "C99_iteration",
    "C99_membership",
    "C99_membership_other",
    "C99_own",
    "C99_by_identity",
    "C99_append",
    "C99_set",
    "C99_delete",
    "C99_appended",
    "C99_primitive",
    "C99_library",
    "C99_hash",
    "C99_elements",
    "C99_equal_values_refuted",
    "C99_general_names_refuted",
    "C99_slice_refuted"
   ],
   "note": "For all lists with any class of children, any comparison and any history of reads; the comparison the classes of the library get is computed from their definitions. REFUTED: 80 of the 101 list classes have children without ==, so that an object with the same octets is not in the list; a general name of a kind without == makes 'in' raise; slices give parser tuples."
  },
  {
   "property": "C100",
   "status": "proved",
   "theorems": [
    "C100_causes",
    "C100_no_key_error",
    "C100_exceptions",
    "C100_value_errors",
    "C100_library",
    "C100_trailing_refuted",
    "C100_names_refuted"
   ],
   "note": "For all octets, strict or not, and every class of the table. The texts of names are a parameter assumed to raise ValueError or UnicodeError only (texts_fine); OutOfFuel stands for the recursion limit of Python; for CertificateChoices, whose validate() looks at what it is given, the cause allows any exception. REFUTED: that it is ValueError alone, for sequences (elements after the last field are read by their tags) and for enumerations."
  },
  {
   "property": "C101",
   "status": "proved",
   "theorems": [
    "C101_classes",
    "C101_alone",
    "C101_explicit_number",
    "C101_implicit_number",
    "C101_old_explicit",
    "C101_old_implicit",
    "C101_new_first",
    "C101_names",
    "C101_tagging",
    "C101_errors",
    "C101_convert",
    "C101_convert_again",
    "C101_convert_missing",
    "C101_class_name_refuted",
    "C101_both_refuted",
    "C101_convert_refuted"
   ],
   "note": "For all arguments: numbers, texts and other values as classes, numbers and other values as tags, pairs and tuples of pairs. Booleans, other sequences and classes that cannot be hashed are not modelled. REFUTED: an unknown class name in explicit raises KeyError instead of the ValueError documented; implicit is dropped when explicit is given too; fields drop a misspelt tag_type and prefer the old style where constructors prefer the new one."
  },
  {
   "property": "C102",
   "status": "proved",
   "theorems": [
    "C102_text",
    "C102_apart",
    "C102_only",
    "C102_numbers"
   ],
   "note": "For all octets and all native values; the names and texts are stated again from RFC 5280 and the source. The text of privilege_withdrawn is misspelt in the source (withdrawl)."
  }
 ]
}