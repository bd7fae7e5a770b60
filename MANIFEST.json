{
 "claims": [
  {
   "property": "C01",
   "status": "proved",
   "theorems": [
    "C01_unpack_pack",
    "C01_pack_unpack"
   ],
   "note": ""
  },
  {
   "property": "C02",
   "status": "proved",
   "theorems": [
    "C02_parse_format",
    "C02_parse_rejects",
    "C02_malformed_rejected_refuted"
   ],
   "note": "Short or malformed strings that are nevertheless accepted or read out of bounds: see C02_malformed_rejected_refuted."
  },
  {
   "property": "C03",
   "status": "proved",
   "theorems": [
    "C03_writer_concatenates",
    "C03_bit_fields_roundtrip"
   ],
   "note": "Widths 1..32, all field sequences."
  },
  {
   "property": "C04",
   "status": "partial",
   "theorems": [
    "C04_bits_left",
    "C04_bits_left_past_refuted",
    "C04_get_bits_inside_partial",
    "C04_get_bits_out_of_bounds_iff",
    "C04_get_bits_safe_refuted",
    "C04_get_bits_spurious_eof_refuted",
    "C04_skip_bits",
    "C04_skip_bits_left"
   ],
   "note": "The property as stated is false of the code: C04_get_bits_safe_refuted. Proved: exact condition for out-of-bounds reads and correctness inside the buffer, for reading and for skipping; the count of the bits left, which wraps round past the end (C04_bits_left_past_refuted)."
  },
  {
   "property": "C05",
   "status": "proved",
   "theorems": [
    "C05_decimal_roundtrip",
    "C05_round_decimal_id",
    "C05_encode_nearest",
    "C05_decimal_order",
    "C05_scale_out_of_bounds"
   ],
   "note": "Binary64 arithmetic through Flocq."
  },
  {
   "property": "C06",
   "status": "partial",
   "theorems": [
    "C06_field_through_variable",
    "C06_raw_in_range",
    "C06_wide_integer_refuted",
    "C06_raw_field_roundtrip"
   ],
   "note": "Raw fields: all widths, scales and references. Through variables: proved for every raw field inside the declared range; refuted for 32-bit Integer fields with the high bit set."
  },
  {
   "property": "C07",
   "status": "proved",
   "theorems": [
    "C07_always_in_range",
    "C07_history_ok",
    "C07_move_assign_refuted"
   ],
   "note": "Histories of any length with any options at each call; hypothesis: nonempty ranges. Move assignment between different definitions is refuted."
  },
  {
   "property": "C08",
   "status": "partial",
   "theorems": [
    "C08_seti_refused",
    "C08_setd_refused",
    "C08_setd_clamped",
    "C08_domain_error_unsets",
    "C08_setval_refuted",
    "C08_setd_integer_refuted",
    "C08_setd_integer_nan_refuted"
   ],
   "note": "Proved for seti on all numeric variables and setd on decimal ones; every domain error unsets. Refuted for setd on Integer variables (wraps modulo 2^32, NaN) and for setval."
  },
  {
   "property": "C09",
   "status": "proved",
   "theorems": [
    "C09_store_integer",
    "C09_store_double",
    "C09_store_string",
    "C09_store_undef",
    "C09_store_refused",
    "C09_seti_enqi",
    "C09_setd_enqd",
    "C09_setd_enqd_integer",
    "C09_enqd_setd",
    "C09_string"
   ],
   "note": "Doubles: stored integer within 1/2 + 1e-5 of d*10^scale (rounding of one multiplication). Also through the functions of Subset that store a variable by code and value."
  },
  {
   "property": "C10",
   "status": "partial",
   "theorems": [
    "C10_text_roundtrip",
    "C10_text_is_decimal",
    "C10_int_min_refuted",
    "C10_wrap_refuted"
   ],
   "note": "All values but INT_MIN, for which the text conversion overflows (refuted)."
  },
  {
   "property": "C11",
   "status": "partial",
   "theorems": [
    "C11_untouched",
    "C11_copy_independent",
    "C11_assign_independent",
    "C11_move_assign_refuted",
    "C11_own_attributes_refuted",
    "C11_move_assign",
    "C11_move_assign_memory",
    "C11_equality",
    "C11_equality_refl",
    "C11_equality_sym",
    "C11_equality_trans",
    "C11_mixed_types_refuted"
   ],
   "note": "Equality laws proved for variables made with the same definitions; copies proved independent in the heap model for all later histories. Refuted: comparison of mixed types, move assignment keeps the code of the destination, setattrs from itself drops the attributes."
  },
  {
   "property": "C12",
   "status": "proved",
   "theorems": [
    "C12_attributes_map",
    "C12_attributes_map_from",
    "C12_iteration"
   ],
   "note": "All histories."
  },
  {
   "property": "C13",
   "status": "partial",
   "theorems": [
    "C13_diff_zero",
    "C13_alike",
    "C13_subset_diff_zero",
    "C13_subset_diff",
    "C13_subset_diff_self",
    "C13_diff",
    "C13_diff_self",
    "C13_unset_refuted"
   ],
   "note": "C13_diff_zero: nothing is found exactly for the same code and value and, when set, the same type, attributes and bits; for unset variables attributes are not compared (refuted)."
  },
  {
   "property": "C14",
   "status": "proved",
   "theorems": [
    "C14_query_bufr",
    "C14_query_lines",
    "C14_query_crex",
    "C14_loaded_is_sorted",
    "C14_bufr_file",
    "C14_crex_file"
   ],
   "note": "For every table B file that loads (BUFR and CREX): lookup and contains agree with the lines of the file for every code; unsorted files are refused. Line syntax itself is the model of the column parser."
  },
  {
   "property": "C15",
   "status": "proved",
   "theorems": [
    "C15_negative_count",
    "C15_query",
    "C15_any_file_safe",
    "C15_unsorted_refuted"
   ],
   "note": "For every list of sequences with increasing codes, its file loads and every lookup gives the listed descriptors or error_notfound; any file that loads is safe to query. Refuted for unsorted files, which the loader accepts."
  },
  {
   "property": "C16",
   "status": "proved",
   "theorems": [
    "C16_exact",
    "C16_interned",
    "C16_stable",
    "C16_distinct",
    "C16_alteration_sound",
    "C16_alteration_kind"
   ],
   "note": "For all histories of requests: answers depend on file and request only, carry the requested parameters, are interned, never modified, and distinct for distinct requests."
  },
  {
   "property": "C17",
   "status": "proved",
   "theorems": [
    "C17_refines_lists",
    "C17_refines_sublists",
    "C17_pop_partitions",
    "C17_index_past_end_refuted",
    "C17_index"
   ],
   "note": "Any program of list operations refines plain lists and never reads out of bounds; operator[] at i = size is refuted (reads one past the end)."
  },
  {
   "property": "C18",
   "status": "proved",
   "theorems": [
    "C18_watching_is_harmless",
    "C18_template_expansion",
    "C18_expansion_is_run",
    "C18_sequence_is_its_content",
    "C18_replication_is_repetition"
   ],
   "note": "Running a template makes exactly the calls of its WMO expansion (expands/script in Interp/Spec.v), for every visitor; converse: every executable expansion is a run; sequences and replications equal their inlined content (unless what follows starts with a class 31 element right after an empty delayed replication)."
  },
  {
   "property": "C19",
   "status": "partial",
   "theorems": [
    "C19_definition_of_every_element",
    "C19_cancelled",
    "C19_other_elements_refuted",
    "C19_references_not_cancelled_refuted",
    "C19_large_increase_refuted"
   ],
   "note": "Every element gets the definition given by the operators before it in the expansion, and table B's when none is in force. Missing: 'of no other' is false (character data and code tables are changed too), 203000 does not cancel, 207YYY with YYY>9 is undefined: see the _refuted theorems."
  },
  {
   "property": "C20",
   "status": "proved",
   "theorems": [
    "C20_positions",
    "C20_present",
    "C20_data_elements",
    "C20_values_follow_bitmap",
    "C20_no_bitmap",
    "C20_empty_bitmap_refuted",
    "C20_second_bitmap_refuted",
    "C20_reuse_twice_refuted"
   ],
   "note": "Positions of a bitmap, the k-th value goes to the k-th element marked present, reuse with 237000; with refutations for bitmaps that mark nothing and for a second bitmap that does not fit (double free)."
  },
  {
   "property": "C21",
   "status": "proved",
   "theorems": [
    "C21_data_section_round_trip",
    "C21_values_are_the_same",
    "C21_loaded_tables",
    "C21_value_round_trip",
    "C21_all_ones",
    "C21_extra_variables_refuted",
    "C21_other_code_refuted",
    "C21_zero_reference_refuted",
    "C21_missing_string_refuted"
   ],
   "note": "For every B and D table, template, list of subsets and position in the message, whatever the ideal transmission of Codec/Spec.v accepts is encoded, and decoded to the same variables in the same order with the same definitions and values; operator 205 text comes back blank padded. The side conditions (values that fit their fields, definitions that the template asks for) are the guards of that specification; the refuted theorems show that each is needed."
  },
  {
   "property": "C22",
   "status": "proved",
   "theorems": [
    "C22_attributes_arrive",
    "C22_attributes_come_from_the_sender"
   ],
   "note": "All attributes that the template asks for arrive with their values, and nothing else arrives except associated fields. Which ones a bitmap asks for is C20."
  },
  {
   "property": "C23",
   "status": "proved",
   "theorems": [
    "C23_base_plus_difference",
    "C23_no_differences",
    "C23_texts",
    "C23_compressed_like_uncompressed",
    "C23_same_variables",
    "C23_columns_exist",
    "C23_associated_field_leak_refuted",
    "C23_factor_all_ones_refuted",
    "C23_wide_differences_refuted",
    "C23_text_associated_field_refuted"
   ],
   "note": "Column level with arbitrary base, width and differences (C23_base_plus_difference, C23_no_differences, C23_texts); whole data sections for any choice of bases and widths (C23_compressed_like_uncompressed) and agreement with the uncompressed codec (C23_same_variables). Refuted at the edges: associated field of a subset leaks to the following subsets, all ones replication factors, widths over 32 (undefined), associated fields of texts not read."
  },
  {
   "property": "C24",
   "status": "proved",
   "theorems": [
    "C24_edition4_header",
    "C24_master_table_refuted"
   ],
   "note": "For every bulletin that encodes, the header read back has all the listed fields. Refuted: the master table number is always written as 0."
  },
  {
   "property": "C25",
   "status": "proved",
   "theorems": [
    "C25_edition3_header",
    "C25_year_refuted",
    "C25_centre_refuted"
   ],
   "note": "Years 1951 to 2050, centre and subcentre below 256 (what the format has room for, as the decoder reads it). Refuted outside: 2051 is read as 1951, centre 256 as 0."
  },
  {
   "property": "C26",
   "status": "proved",
   "theorems": [
    "C26_framing",
    "C26_sections_found_again",
    "C26_decoded_is_framed",
    "C26_long_messages_refuted",
    "C26_long_messages_exist"
   ],
   "note": "For messages below 2^24 bytes. Refuted at 2^24 or more: a wrong length is written without an error."
  },
  {
   "property": "C27",
   "status": "proved",
   "theorems": [
    "C27_stream",
    "C27_next_message",
    "C27_end_of_file",
    "C27_reading_ends",
    "C27_separator_refuted"
   ],
   "note": "Separators must not contain the signature nor end with B, BU or BUF. Refuted for a separator that ends with B: the following message is lost."
  },
  {
   "property": "C28",
   "status": "partial",
   "theorems": [
    "C28_value_round_trip",
    "C28_line_round_trip",
    "C28_missing_with_check_digits_refuted",
    "C28_slash_refuted",
    "C28_leading_space_refuted",
    "C28_trailing_space_refuted"
   ],
   "note": "Values and whole lines of values, in both modes, for every value that fits its field. The English statement is false of the code for missing values with check digits, and for texts that begin with a space or a slash, end with a space or are empty without check digits: refuted with examples."
  },
  {
   "property": "C29",
   "status": "partial",
   "theorems": [
    "C29_stream",
    "C29_end_of_file",
    "C29_reading_ends",
    "C29_encoded_messages",
    "C29_separator_refuted",
    "C29_plus_refuted",
    "C29_no_values_refuted",
    "C29_written_file"
   ],
   "note": "Streams of messages between separators that do not contain CREX++ or end with a part of it; encoded messages come back and decode. Refuted: a C before a message, a + before the end mark, a message without values."
  },
  {
   "property": "C30",
   "status": "partial",
   "theorems": [
    "C30_bufr_choice",
    "C30_bufr_closest",
    "C30_bufr_found",
    "C30_bufr_order",
    "C30_bufr_exact",
    "C30_bufr_exact_origin",
    "C30_file_names",
    "C30_crex_closest",
    "C30_crex_found",
    "C30_crex_by_bufr_version",
    "C30_any_history",
    "C30_total_orders",
    "C30_exact_refuted",
    "C30_order_refuted",
    "C30_crex_exact_refuted",
    "C30_version_wraps_refuted"
   ],
   "note": "The selected table is usable, the first of the closest ones, found whenever one exists, and does not depend on the order but for ties, nor on what was asked before (caches and directories). The wanted table itself wins if it has a local version. Refuted: it may lose if no local version is wanted (C30_exact_refuted) or, in CREX, to a BUFR table; and ties are resolved by the order of the directory."
  },
  {
   "property": "C31",
   "status": "partial",
   "theorems": [
    "C31_lookup",
    "C31_same_unit",
    "C31_both_ways",
    "C31_round_trip",
    "C31_round_trip_exact",
    "C31_round_trip_kelvin",
    "C31_round_trip_octants",
    "C31_round_trip_refuted",
    "C31_order_refuted"
   ],
   "note": "Any order the sort may leave. Lookup finds a listed conversion and only those. Round trips: identities and single-listed factors up to 1e-15, twice-listed ones up to 2e-5, K and C up to rounding, octants exact. Refuted: K to C/10 and back (300 K gives 2758 K); the value depends on the order left by the sort."
  },
  {
   "property": "C32",
   "status": "proved",
   "theorems": [
    "C32_cloud_groups",
    "C32_weather_codes",
    "C32_weather_negative_refuted",
    "C32_cloud_types",
    "C32_cloud_types_back",
    "C32_weather",
    "C32_domains",
    "C32_cloud_types_apart",
    "C32_significance",
    "C32_significance_missing",
    "C32_significance_refuted"
   ],
   "note": "All the WMO code tables both ways, domains, which BUFR value each code becomes, the four cloud types do not overlap; significance flags survive the new table (bit by bit in C68). The other direction of the significance flags is refuted (humidity alone gains temperature); negative weather codes are accepted (refuted)."
  },
  {
   "property": "C33",
   "status": "partial",
   "theorems": [
    "C33_crex_accepted_is_encoded",
    "C33_crex_accepted_iff_sendable",
    "C33_crex_sendable_is_accepted",
    "C33_crex_accepted_round_trip",
    "C33_crex_scale_refuted",
    "C33_crex_length_refuted",
    "C33_crex_raw_refuted",
    "C33_accepted_is_encoded_partial",
    "C33_careful_check_is_sound",
    "C33_sendable_is_accepted",
    "C33_associated_field_refuted",
    "C33_significance_refuted",
    "C33_bitmap_size_refuted",
    "C33_unknown_size_refuted",
    "C33_32_bits_refuted"
   ],
   "note": "BUFR: sound for templates of elements, replications, sequences and definition-changing operators with typed subsets; for all templates when five missing checks are added; complete (everything that can be sent is accepted) for fields under 32 bits. Refuted: associated field overflow, unknown significance, bitmap size, local descriptor size, 32-bit fields. CREX, for templates without operators: what is accepted is encoded; when the variables have the definitions of the tables and fit their fields, accepted means the same as sendable, and the message is read back. Refuted for CREX: another scale or length than the tables', and character data."
  },
  {
   "property": "C34",
   "status": "partial",
   "theorems": [
    "C34_field_arrives",
    "C34_missing_field",
    "C34_same_attribute",
    "C34_significance_21_refuted"
   ],
   "note": "Proved for all significances but 21, for which the decoder loses the value (C34_significance_21_refuted)."
  },
  {
   "property": "C35",
   "status": "proved",
   "theorems": [
    "C35_append_dpb",
    "C35_first_variables",
    "C35_short_bitmap_refuted",
    "C35_long_bitmap_refuted",
    "C35_append_fixed_dpb"
   ],
   "note": "append_dpb over all the data variables: count and bitmap are those of the variables that carry the attribute, and the encoder reads it so. Other sizes refuted: smaller sizes count the first variables but mark the last ones, larger sizes are undefined."
  },
  {
   "property": "C36",
   "status": "partial",
   "theorems": [
    "C36_templates_end",
    "C36_ranked_tables",
    "C36_cyclic_table_refuted",
    "C36_any_header",
    "C36_decoding_ends",
    "C36_short_data_section_refuted",
    "C36_cut_data_refuted",
    "C36_no_subsets",
    "C36_total_length_ignored"
   ],
   "note": "Reading the header of any byte string is defined and ends; decoding ends for every byte string given tables without cycles. That no read is outside the buffer is refuted (short data section, data that end inside a value); cyclic tables are refuted."
  },
  {
   "property": "C37",
   "status": "proved",
   "theorems": [
    "C37_obtain_subset",
    "C37_subset",
    "C37_obtained_is_there"
   ],
   "note": "obtain_subset and subset on the list of subsets; memory exhaustion is not modelled."
  },
  {
   "property": "C38",
   "status": "partial",
   "theorems": [
    "C38_range_encodable_partial",
    "C38_range_crex_partial",
    "C38_bufr_definition_ok",
    "C38_class31_refuted",
    "C38_wide_refuted"
   ],
   "note": "Proved for definitions of less than 10 digits outside class 31; refuted for class 31 and for 10 or more digits."
  },
  {
   "property": "C39",
   "status": "partial",
   "theorems": [
    "C39_string_roundtrip",
    "C39_string_roundtrip_refuted",
    "C39_missing_string_roundtrip",
    "C39_missing_wide_is_ub",
    "C39_binary_roundtrip",
    "C39_missing_binary_refuted",
    "C39_binary_definition",
    "C39_string_definition"
   ],
   "note": "Round trip proved for printable strings and binary data under the stated conditions; missing binary data and strings with trailing blanks refuted."
  },
  {
   "property": "C40",
   "status": "proved",
   "theorems": [
    "C40_messages_round_trip",
    "C40_equal_bulletin",
    "C40_compression_refuted"
   ],
   "note": "Relative to transfer_all (C21), which says which subsets can be sent; header fields as C24 and C25 say. Refuted: compression flag and odd optional sections."
  },
  {
   "property": "C41",
   "status": "partial",
   "theorems": [
    "C41_both_bufr",
    "C41_diff_zero",
    "C41_same",
    "C41_any_self",
    "C41_encodings",
    "C41_crex_bufr_version_refuted",
    "C41_crex_counted_twice_refuted",
    "C41_bulletin_diff",
    "C41_self",
    "C41_compression_refuted",
    "C41_decoded",
    "C41_decoded_crex",
    "C41_sent_again",
    "C41_crex_sent_again",
    "C41_same_text",
    "C41_crex_same_text"
   ],
   "note": "Nothing is found exactly when the encoding, header, optional section, template, tables and variables are the same (C41_diff_zero), except for what the library leaves out: the compression flag, attributes of unset variables (C13), and the version of the BUFR tables of CREX bulletins (refuted; the version of the master table counts twice instead). C41_sent_again: decoded, encoded and decoded again, compressed or not, with the tables of the library, nothing is found."
  },
  {
   "property": "C42",
   "status": "proved",
   "theorems": [
    "C42_message_round_trip",
    "C42_two_subsets_refuted",
    "C42_check_digits_refuted",
    "C42_factor_width_refuted",
    "C42_factor_dropped_refuted",
    "C42_table_version_refuted"
   ],
   "note": "One subset, for variables that fit their fields (crex_transfer, which is stated without the text). Refuted: two subsets, check digits, delayed replication factors whose field has not the four digits that are written, B 31 001, table versions from 100."
  },
  {
   "property": "C43",
   "status": "partial",
   "theorems": [
    "C43_any_header",
    "C43_header_ends_refuted",
    "C43_data_end",
    "C43_decoding_ends",
    "C43_decoding_safe",
    "C43_loaded_elements",
    "C43_decoding_safe_refuted"
   ],
   "note": "Decoding ends when reading the header does; reading the header is always defined and either ends or never does; decoding has no undefined behaviour for any text, with tables loaded from CREX files, unless 207YYY with YYY above 9 is in the template (refuted then). The full statement is refuted: a header cut after a descriptor makes the decoder loop for ever."
  },
  {
   "property": "C44",
   "status": "partial",
   "theorems": [
    "C44_kelvin",
    "C44_octants",
    "C44_units",
    "C44_nanobar_refuted",
    "C44_tenths_refuted"
   ],
   "note": "All conversions agree with the SI within 2.1e-5 but PA/NBAR (refuted: wrong way round), C/10 to K (refuted) and NTU/LM (not comparable); kelvin shift and octants proved."
  },
  {
   "property": "C45",
   "status": "partial",
   "theorems": [
    "C45_observable",
    "C45_safe",
    "C45_errors",
    "C45_no_leak",
    "C45_assign_lengths_refuted",
    "C45_assign_types_refuted",
    "C45_assign_leak_refuted",
    "C45_own_attribute_refuted"
   ],
   "note": "Heap model of Var. For all histories in which assignments are between definitions that agree on the storage (same type family and length): no undefined behaviour, values as specified, no leak. Refuted without that condition (copy assignment across lengths or types overflows, follows a number as a pointer or leaks) and for assignment from an own attribute (use after free)."
  },
  {
   "property": "C46",
   "status": "partial",
   "theorems": [
    "C46_elements_load",
    "C46_numbers_arrive",
    "C46_crex_load",
    "C46_crex_load_refuted",
    "C46_sequences_load",
    "C46_sequences_found_refuted",
    "C46_found",
    "C46_found_refuted",
    "C46_wmo",
    "C46_whole",
    "C46_decoding_ends",
    "C46_decoding_ends_refuted",
    "C46_order_refuted"
   ],
   "note": "Holds for all files and identifiers but the exceptions that the theorems list, each of which is proved: one table B cannot be loaded (centre 254, version 19: out-of-bounds read), files for BUFR of versions 12-17 cannot be loaded for CREX, sequences lost to lookups in three tables D, 312018 contains itself in two tables D (versions 1-2 and 7-11), choice for centre 98 version 33 depends on the order of the directory."
  },
  {
   "property": "C47",
   "status": "proved",
   "theorems": [
    "C47_checked_safe",
    "C47_same_without_checks",
    "C47_decoding_safe",
    "C47_end_of_data_refuted",
    "C47_bitmaps_refuted",
    "C47_differences_refuted",
    "C47_operators_refuted",
    "C47_shipped_tables"
   ],
   "note": "The claim is about the decoder with three checks added; the library agrees with it whenever no check fires (C47_same_without_checks). The _refuted theorems show that no check can be left out, and that the conditions on 203YYY and 207YYY are needed. C47_shipped_tables instantiates the claim with the tables that come with the library."
  },
  {
   "property": "C48",
   "status": "partial",
   "theorems": [
    "C48_compressed_data_can_be_sent_again",
    "C48_compressed_class_31_refuted",
    "C48_compressed_associated_fields_refuted",
    "C48_inside_outside_class_31",
    "C48_data_can_be_sent_again",
    "C48_no_local_definitions",
    "C48_texts_refuted",
    "C48_reference_zero_refuted",
    "C48_compressed_messages_can_be_sent_again",
    "C48_messages_can_be_sent_again",
    "C48_master_table_refuted",
    "C48_year_refuted",
    "C48_compressed_shipped_tables",
    "C48_shipped_tables"
   ],
   "note": "Proved for data sections (C48_data_can_be_sent_again), for messages (C48_messages_can_be_sent_again) and for messages with the shipped tables and templates without operators (C48_shipped_tables). Subsets decoded from compressed data are encoded without compression and come back as they are (C48_compressed_data_can_be_sent_again, C48_compressed_messages_can_be_sent_again; with the shipped tables and templates without operators C48_compressed_shipped_tables), except with associated fields, which are lost or appear (C48_compressed_associated_fields_refuted), and with numbers of class 31 that are missing or exceed their field (C48_compressed_class_31_refuted). The conditions are on the record of what was read; the _refuted theorems show what happens without them. That the new message has less than 2^24 bytes is a hypothesis."
  },
  {
   "property": "C49",
   "status": "partial",
   "theorems": [
    "C49_checked_safe",
    "C49_same_without_checks",
    "C49_exactly",
    "C49_encoding_ends",
    "C49_big_number_refuted",
    "C49_other_type_refuted",
    "C49_reference_zero_refuted",
    "C49_bitmap_refuted",
    "C49_missing_text_refuted",
    "C49_shipped_tables",
    "C49_shipped_tables_end"
   ],
   "note": "For all bulletins with variables as the library makes them, in any number and order, encoding with five checks added is defined, and the library itself has undefined behaviour exactly on the bulletins that the checks stop (bitmaps that mark nothing: at most there); encoding ends. Also with the shipped tables. Partial because the library makes none of the checks: one bulletin with undefined behaviour is proved for each (_refuted). Templates with 207YYY above nine digits or 203YYY above 31 bits are excluded."
  },
  {
   "property": "C50",
   "status": "partial",
   "theorems": [
    "C50_shipped_tables",
    "C50_shipped_tables_refuted",
    "C50_printf_exists",
    "C50_strtod_exists",
    "C50_number_text",
    "C50_binary_text",
    "C50_file_text_read_back",
    "C50_text_read_back",
    "C50_long_number_refuted",
    "C50_empty_text_refuted",
    "C50_binary_refuted"
   ],
   "note": "Proved for all definitions, values and options, with the C library's printf and strtod as parameters that round correctly; refuted for numbers longer than 19 characters (B24001, B24002 of the shipped tables), for empty texts and for binary values, where the exact behaviour is proved instead."
  },
  {
   "property": "C51",
   "status": "partial",
   "theorems": [
    "C51_threads",
    "C51_threads_end",
    "C51_again",
    "C51_bufr_tables",
    "C51_crex_tables",
    "C51_altered",
    "C51_first_use_refuted",
    "C51_same_alteration_refuted"
   ],
   "note": "Proved: after any jobs done once by one thread (C51_threads), any number of threads doing the same jobs, in any interleaving of single accesses, have no data race, do not change the memory and get the same answers and pointers; nothing blocks; what one thread gets depends on the files alone, and altered definitions are those of C16. Refuted without the first run: first loads race (C51_first_use_refuted), new alterations race and are not interned (C51_same_alteration_refuted). Access granularity: one location per pointer, map, object or chain; allocation is thread-safe; files and directories do not change."
  },
  {
   "property": "C52",
   "status": "partial",
   "theorems": [
    "C52_restored",
    "C52_in_force",
    "C52_assignment_undone",
    "C52_silent",
    "C52_collect_refuted",
    "C52_collect"
   ],
   "note": "Proved: settings restored on every exit, at any nesting; everything is done with the settings of the objects alive at its place; silent scopes throw no domain error. Refuted in one case: notes::Collect without a previous target is undefined behaviour in its destructor (C52_collect_refuted). Hooks that change the options are not modelled."
  },
  {
   "property": "C53",
   "status": "partial",
   "theorems": [
    "C53_checked_safe",
    "C53_same_without_checks",
    "C53_exactly",
    "C53_encoding_ends",
    "C53_always_defined",
    "C53_other_type_refuted",
    "C53_long_text_refuted",
    "C53_text_of_255_refuted",
    "C53_bitmap_refuted",
    "C53_narrower_text_refuted",
    "C53_shipped_tables"
   ],
   "note": "Full statement proved with CREX definitions of at most 254 characters, templates without the operators listed, and values that can be written as texts; also with the tables of the library. Without these conditions it is refuted (C53_*_refuted) and C53_exactly says where."
  },
  {
   "property": "C54",
   "status": "partial",
   "theorems": [
    "C54_width_refuted",
    "C54_width_fails_refuted",
    "C54_text_wraps_refuted",
    "C54_scale_refuted",
    "C54_increase",
    "C54_text_width",
    "C54_cancel",
    "C54_messages_refuted"
   ],
   "note": "208YYY and the end of the operators are proved; the widths of 201YYY and the scales of 202YYY are refuted for all elements of all CREX tables."
  },
  {
   "property": "C55",
   "status": "partial",
   "theorems": [
    "C55_again",
    "C55_plain_template",
    "C55_two_subsets_refuted",
    "C55_check_digits_refuted",
    "C55_nul_refuted",
    "C55_local_subcategory_refuted",
    "C55_short_factor_refuted",
    "C55_clamped_factor_refuted",
    "C55_shipped_tables"
   ],
   "note": "Proved under the conditions of Crex/Again.v (C55_again), from the tables alone for templates without operators (C55_plain_template) and with the tables of the library (C55_shipped_tables). Refuted with two subsets, check digits, NUL bytes, local subcategory 255, counts of three characters and counts replaced by the nearest value."
  },
  {
   "property": "C56",
   "status": "partial",
   "theorems": [
    "C56_bufr",
    "C56_crex",
    "C56_files",
    "C56_in_range",
    "C56_encode",
    "C56_bufr_as_crex",
    "C56_crex_as_bufr",
    "C56_empty_range_refuted",
    "C56_shipped_tables"
   ],
   "note": "C56_bufr and C56_crex hold for every message, template and set of options; C56_shipped_tables needs no condition on the tables. C56_encode, C56_bufr_as_crex and C56_crex_as_bufr give what is decoded to the theorems of C49 and C53. C56_empty_range_refuted is the one exception, part of the definition of sound (Codec/Sound.v); C56_in_range is the statement without it."
  },
  {
   "property": "C57",
   "status": "partial",
   "theorems": [
    "C57_listing",
    "C57_features",
    "C57_when_listed",
    "C57_when_scanned",
    "C57_listing_faithful",
    "C57_same_walk",
    "C57_bitmap_hidden_refuted",
    "C57_implied_factor_refuted",
    "C57_character_data_refuted",
    "C57_not_scanned_refuted"
   ],
   "note": "Printer and ScanFeatures as walkers over the interpreter. A listing is the text of the one tree of the template (C57_listing), a scan gives exactly its features in order (C57_features); both are made for all templates whose nodes are accepted (C57_when_listed, C57_when_scanned); listings are faithful without bitmaps and unwritten factors (C57_listing_faithful). Partial: refuted for 205YYY (neither), 203YYY and 204YYY (no scan), bitmaps and unwritten factors (not in the listing)."
  },
  {
   "property": "C58",
   "status": "partial",
   "theorems": [
    "C58_variables",
    "C58_structure",
    "C58_decoded_one_by_one",
    "C58_decoded_compressed",
    "C58_decoded",
    "C58_lines",
    "C58_new_references_refuted",
    "C58_unknown_field_refuted",
    "C58_attribute_number_refuted",
    "C58_newline_refuted"
   ],
   "note": "DDSPrinter as a walker over the interpreter. The lines are those of the template with its replications (C58_structure), the variables come in order with their numbers (C58_variables); what a decoder gives is printed whole (C58_decoded, for both decoders); a line determines where it is (C58_lines). Partial: refuted for 203YYY, for 204YYY with significance 0 in compressed messages, for the numbers of attribute lines and for the ends of lines of what is missing."
  },
  {
   "property": "C59",
   "status": "partial",
   "theorems": [
    "C59_format",
    "C59_format_unset",
    "C59_int",
    "C59_float",
    "C59_text",
    "C59_rebuild",
    "C59_unset",
    "C59_copy",
    "C59_equal",
    "C59_str",
    "C59_code",
    "C59_get_attrs",
    "C59_attributes",
    "C59_table",
    "C59_bad_key",
    "C59_lua",
    "C59_big_int_refuted",
    "C59_big_int_system_error_refuted",
    "C59_accent_refuted",
    "C59_binary_refuted",
    "C59_no_arguments_refuted",
    "C59_value_ignored_refuted",
    "C59_enqa_refuted",
    "C59_table_len_refuted",
    "C59_table_loop_refuted"
   ],
   "note": "Proved: ints, floats and texts given and read back, rebuilding a variable from what is read, unset variables, errors, attributes, codes as keys, table lookup, equality, str() and repr() of numbers, Lua. Refuted: ints beyond a C int, texts cut inside a character, all binary values, Var() without arguments, Var(var, value), enqa, len() and loops of tables."
  },
  {
   "property": "C60",
   "status": "partial",
   "theorems": [
    "C60_dump",
    "C60_dump_ends",
    "C60_dump_encoded_file",
    "C60_dump_encoded_crex_file",
    "C60_encoded_file",
    "C60_encoded_crex_file",
    "C60_every_file_is_read",
    "C60_unparsable",
    "C60_unparsable_again",
    "C60_print",
    "C60_tables",
    "C60_long_options",
    "C60_options_anywhere",
    "C60_code_list",
    "C60_always_ends",
    "C60_short_print_refuted",
    "C60_short_help_refuted",
    "C60_bad_code_refuted",
    "C60_status_refuted",
    "C60_cut_message_refuted",
    "C60_columns_refuted",
    "C60_crex_ends_refuted",
    "C60_structure",
    "C60_structure_head",
    "C60_structure_complete",
    "C60_features",
    "C60_features_one",
    "C60_dds",
    "C60_list_tables"
   ],
   "note": "Proved for any decoders: which messages are found in a file, what -U copies (also given its own output), what --print and -T write, that failures never stop the rest, that long and short options agree and that the program ends when the decoders do. Proved with the decoders of the library: on a file of messages encoded from bulletins, with anything that is not a start mark between them, --print writes the values sent and -U copies nothing (BUFR and CREX). With the printing of C61, -d (the default) writes the texts of the messages that can be decoded, in order, whatever the files hold (C60_dump, C60_dump_ends), and on files of encoded bulletins the texts of the bulletins that arrive (C60_dump_encoded_file, C60_dump_encoded_crex_file). -D prints the tree of the template of every message and -F its features, each once and in order (C60_dds, C60_features, C60_features_one); -L prints the list of C65 (C60_list_tables). -s prints every message along its template, after the same head as -d, and to its end with all its variables unless the template has 203YYY, or 204YYY in a compressed message (C60_structure, C60_structure_head, C60_structure_complete). Refuted: short -p and -h, bad codes, the exit status, columns of absent codes, a message cut by the end of the file, CREX messages on which the decoder loops."
  },
  {
   "property": "C61",
   "status": "partial",
   "theorems": [
    "C61_crex_header_text",
    "C61_decoded_crex_definitions",
    "C61_decoded_crex_text",
    "C61_bufr_header_text",
    "C61_decoded_definitions",
    "C61_decoded_text",
    "C61_bufr_layout",
    "C61_crex_layout",
    "C61_subset_layout",
    "C61_bufr_text",
    "C61_crex_text",
    "C61_same_values",
    "C61_decoded_bufr_is_printed",
    "C61_decoded_crex_is_printed",
    "C61_missing_refuted",
    "C61_newline_refuted",
    "C61_optional_refuted",
    "C61_stream_refuted",
    "C61_stream_indent_refuted"
   ],
   "note": "Proved: the layout of the text line by line (BUFR, CREX, subsets); that two bulletins with the same text have the same header, descriptors, codes and values, for values without newlines and other than the text (undef); that the header, the compression, the descriptors and the number of subsets can be read from the text whatever the values are (C61_bufr_header_text); that everything the decoders return can be printed; that the variables decoded from a message without operators have the definitions of its table and no attributes (C61_decoded_definitions), so that two such messages with the same text are the same but for the content of the optional section (C61_decoded_text); the same for CREX messages, which are then equal (C61_crex_header_text, C61_decoded_crex_definitions, C61_decoded_crex_text). Refuted: the text (undef), texts with newlines, the contents of the optional section, and that a C++ stream gets the same text as a file."
  },
  {
   "property": "C62",
   "status": "partial",
   "theorems": [
    "C62_base64_text",
    "C62_base64_decoded",
    "C62_base64",
    "C62_base64_bad_text_refuted",
    "C62_url",
    "C62_url_cut_refuted",
    "C62_cstring",
    "C62_cstring_text",
    "C62_cstring_end",
    "C62_cstring_control_refuted"
   ],
   "note": "Base64 and URL encoding are proved for all byte strings (URL: encoded size below 2^64), decoding of Base64 for every text of RFC 4648, C strings for all texts without control characters other than newline, tab and NUL. Refuted: other control characters come back as NUL (atoi does not read hexadecimal digits); '%' alone is decoded to a NUL; a Base64 text with '{' is read past the end of the table."
  },
  {
   "property": "C63",
   "status": "partial",
   "theorems": [
    "C63_case",
    "C63_case_again",
    "C63_split",
    "C63_split_skip",
    "C63_join_split",
    "C63_only_separators_refuted",
    "C63_empty_separator_refuted",
    "C63_endless_refuted",
    "C63_strip",
    "C63_lstrip_rstrip",
    "C63_startswith",
    "C63_endswith",
    "C63_normpath",
    "C63_normpath_again",
    "C63_normpath_above_refuted",
    "C63_joinpath",
    "C63_dirname_basename",
    "C63_dirname",
    "C63_trailing_slash_refuted"
   ],
   "note": "All clauses are proved for separators that are not empty and for paths that do not lead above their start. Refuted: an empty separator gives an empty piece too many and never ends with skip_empty; a text of separators only gives one empty piece with skip_empty; normpath of a relative path that leads above its start is undefined behaviour; dirname and basename of a path with a slash at the end do not lead to it."
  },
  {
   "property": "C64",
   "status": "partial",
   "theorems": [
    "C64_store_as",
    "C64_store_as_nearest",
    "C64_store_as_unset",
    "C64_store_as_refused",
    "C64_unset",
    "C64_same_definition",
    "C64_exact",
    "C64_exact_refused",
    "C64_nearest",
    "C64_there_and_back",
    "C64_kelvin",
    "C64_units",
    "C64_units_exact",
    "C64_units_back",
    "C64_unknown",
    "C64_text",
    "C64_text_to_number",
    "C64_binary_refuted",
    "C64_binary"
   ],
   "note": "All clauses are proved but one: a binary destination longer than the value of the source is filled by reading after its end (C64_binary_refuted); C64_binary is the other case. Units are converted exactly, there and back, where the library has them right and lists them once (C64_units_exact, C64_units_back), away from the ends of the range; for the others C64_units bounds the error by two parts in 100000, as C44 does, and half a step."
  },
  {
   "property": "C65",
   "status": "proved",
   "theorems": [
    "C65_no_effect",
    "C65_explain_bufr",
    "C65_explain_crex",
    "C65_identifiers",
    "C65_identifiers_listed",
    "C65_list",
    "C65_by_name",
    "C65_by_name_sequences",
    "C65_files"
   ],
   "note": "The explanation names tables by their identifiers only: of two directories with tables of the same identifier it does not say which one is used."
  },
  {
   "property": "C66",
   "status": "proved",
   "theorems": [
    "C66_text_depends",
    "C66_compressed_text_depends",
    "C66_attribute",
    "C66_compressed_attribute",
    "C66_same",
    "C66_text",
    "C66_compressed_text"
   ],
   "note": "For every byte string and both kinds of messages the verbose decoding has the outcome of the decoding (C66_same), given a domain-error hook that keeps values well formed and tables with definitions that the formats allow. The text (C66_text, C66_compressed_text) is a relation of the template and the decoded values, which leaves one text only (C66_text_depends, C66_compressed_text_depends), for templates without 203YYY, 204YYY, 222000, 223YYY and 237YYY; what is told of an attribute under a bitmap is stated for one attribute (C66_attribute, C66_compressed_attribute). What had been written when a decoding fails is not modelled."
  },
  {
   "property": "C67",
   "status": "partial",
   "theorems": [
    "C67_info_key",
    "C67_info_type",
    "C67_info_text",
    "C67_get_bufr",
    "C67_get_crex",
    "C67_version_wraps_refuted",
    "C67_info_numbers",
    "C67_info_numbers_crex"
   ],
   "note": "Proved for all tables and keys (C67_info_key), all definitions (C67_info_type, C67_info_text for units in ASCII), all directories and all arguments that messages can have (C67_get_bufr, C67_get_crex). Refuted: versions out of range are refused (C67_version_wraps_refuted): they wrap to eight bits."
  },
  {
   "property": "C68",
   "status": "proved",
   "theorems": [
    "C68_aof",
    "C68_significance_flags",
    "C68_significance_back_flags"
   ],
   "note": "Every bit of the result is stated for every argument; the bit numbers are those of codetables.h."
  },
  {
   "property": "C69",
   "status": "partial",
   "theorems": [
    "C69_crex_message_expanded",
    "C69_crex_field",
    "C69_crex_message",
    "C69_crex_separated_refuted",
    "C69_crex_field_read",
    "C69_crex_data_read",
    "C69_message_expanded",
    "C69_message_operators",
    "C69_message_read_operators",
    "C69_definitions",
    "C69_field",
    "C69_message",
    "C69_field_read",
    "C69_message_read"
   ],
   "note": "Proved for templates of elements, sequences, replications and delayed replications to any depth, and in BUFR the operators 201, 202, 207 and 208 (203, 204, 205, 206 and bitmaps are left to the round trips), any number of subsets; missing values wider than 32 bits are left out (C39). CREX is read for one subset (C42). That CREX values are separated by blanks is refuted for missing values."
  }
 ]
}