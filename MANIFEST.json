{
 "claims": [
  {
   "property": "C01",
   "status": "proved",
   "theorems": [
    "C01_never_panics",
    "C01_assembly_never_panics",
    "C01_never_panics_unbounded_refuted"
   ],
   "note": "Needs that the external host and float parsers return (ext_total). The unbounded claim is refuted by a constructed text of 2^32 characters."
  },
  {
   "property": "C02",
   "status": "proved",
   "theorems": [
    "C02_strict_iff_no_warning",
    "C02_strict_first_warning",
    "C02_same_without_unsupported"
   ],
   "note": ""
  },
  {
   "property": "C03",
   "status": "proved",
   "theorems": [
    "C03_warnings"
   ],
   "note": ""
  },
  {
   "property": "C04",
   "status": "proved",
   "theorems": [
    "C04_reported_error",
    "C04_line_errors",
    "C04_too_short"
   ],
   "note": "C04_reported_error needs, like C01, that the external parsers return and that the text is shorter than 2^31 characters."
  },
  {
   "property": "C05",
   "status": "proved",
   "theorems": [
    "C05_line_ends_and_blank_lines",
    "C05_every_text"
   ],
   "note": ""
  },
  {
   "property": "C06",
   "status": "proved",
   "theorems": [
    "C06_structure_holds",
    "C06_structure_enforced",
    "C06_all_simulcasts_refuted"
   ],
   "note": "The stronger claim about all simulcast attributes of a section is refuted."
  },
  {
   "property": "C07",
   "status": "proved",
   "theorems": [
    "C07_levels",
    "C07_session_level_rejected",
    "C07_media_level_rejected"
   ],
   "note": ""
  },
  {
   "property": "C08",
   "status": "proved",
   "theorems": [
    "C08_assembly",
    "C08_document"
   ],
   "note": ""
  },
  {
   "property": "C09",
   "status": "proved",
   "theorems": [
    "C09_last_wins",
    "C09_misplaced_rejected",
    "C07_media_level_rejected"
   ],
   "note": ""
  },
  {
   "property": "C10",
   "status": "proved",
   "theorems": [
    "C10_well_formed",
    "C10_parsed_wf",
    "C10_round_trip",
    "C10_exactly",
    "C10_exceptions_refuted",
    "C10_nan_refuted"
   ],
   "note": "Needs ext_ok (floats and host names read back; ext_ok_satisfiable in PropExt.v shows it can be met). The listed lossy values are session_lossy (SpecPrint.v); each has a witness document in C10_exceptions_refuted and C10_nan_refuted."
  },
  {
   "property": "C11",
   "status": "proved",
   "theorems": [
    "C11_lines",
    "C11_attributes"
   ],
   "note": "All eight line types; well-formedness is item_range and item_wf, without the lossy values of item_lossy (SpecPrint.v)."
  },
  {
   "property": "C12",
   "status": "proved",
   "theorems": [
    "C12_parsed_wf",
    "C12_reparsed",
    "C12_exactly"
   ],
   "note": ""
  },
  {
   "property": "C13",
   "status": "proved",
   "theorems": [
    "C13_text_reads_back",
    "C13_texts_differ",
    "C13_parsed_in_range",
    "C13_address_reads_back"
   ],
   "note": "Reading an IPv4 address goes through the URL host parser: C13_address_reads_back needs ext_ok."
  },
  {
   "property": "C14",
   "status": "proved",
   "theorems": [
    "C14_integers_exact",
    "C14_printed_integers",
    "C14_number_attributes",
    "C14_timing_lines"
   ],
   "note": "Integer fields of the other lines and attributes: the grammars of C47 use the same numeral."
  },
  {
   "property": "C15",
   "status": "proved",
   "theorems": [
    "C15_line",
    "C15_document",
    "C15_strict",
    "C15_other_keywords_refuted"
   ],
   "note": "The letters that may change case are line_variant (SpecCase.v). Error texts may quote the changed word, so errors are compared by kind and line number."
  },
  {
   "property": "C16",
   "status": "proved",
   "theorems": [
    "C16_media_lines"
   ],
   "note": ""
  },
  {
   "property": "C17",
   "status": "proved",
   "theorems": [
    "C17_lines",
    "C17_sessions",
    "C17_items_are_lines"
   ],
   "note": "IP addresses and floats from the external parsers are in range by ext_ok."
  },
  {
   "property": "C18",
   "status": "proved",
   "theorems": [
    "C18_fingerprint_lines",
    "C18_printed_fingerprint"
   ],
   "note": ""
  },
  {
   "property": "C19",
   "status": "proved",
   "theorems": [
    "C19_tokens",
    "C19_always_tokens",
    "C19_characters",
    "C19_characters_refuted"
   ],
   "note": ""
  },
  {
   "property": "C20",
   "status": "proved",
   "theorems": [
    "C20_tones",
    "C20_tones_decided"
   ],
   "note": ""
  },
  {
   "property": "C21",
   "status": "proved",
   "theorems": [
    "C21_parameters",
    "C21_order_irrelevant",
    "C21_rtx_time"
   ],
   "note": "Last value, defaults and unrecognised parameters are part of fmtp_list_value (SpecVal.v)."
  },
  {
   "property": "C22",
   "status": "proved",
   "theorems": [
    "C22_media_attributes",
    "C22_types_are_names"
   ],
   "note": ""
  },
  {
   "property": "C23",
   "status": "proved",
   "theorems": [
    "C23_remove_codecs",
    "C23_add_codec",
    "C23_codecs_consistent"
   ],
   "note": ""
  },
  {
   "property": "C24",
   "status": "proved",
   "theorems": [
    "C24_add_datachannel"
   ],
   "note": "The stale max-message-size with size 0 is part of the statement; the example shows it."
  },
  {
   "property": "C25",
   "status": "proved",
   "theorems": [
    "C25_add_media",
    "C25_add_attribute",
    "C25_built_sessions_are_legal"
   ],
   "note": ""
  },
  {
   "property": "C26",
   "status": "proved",
   "theorems": [
    "C26_masking_is_stable"
   ],
   "note": ""
  },
  {
   "property": "C27",
   "status": "proved",
   "theorems": [
    "C27_masking_is_injective"
   ],
   "note": "Capacity is 2^64 names of a kind, 2^32 ports or IPv4, 2^128 IPv6, 256 fingerprints."
  },
  {
   "property": "C28",
   "status": "proved",
   "theorems": [
    "C28_fingerprint_masks_distinct_refuted",
    "C27_masking_is_injective"
   ],
   "note": "The claim is false of the code: refuted by a history of 256 fingerprints. Up to 256 fingerprints masks are distinct by C27_masking_is_injective at kind KFp."
  },
  {
   "property": "C29",
   "status": "proved",
   "theorems": [
    "C29_masking_keeps_kind",
    "C31_masking_keeps_the_rest"
   ],
   "note": "Families and declared address types inside larger values: C31."
  },
  {
   "property": "C30",
   "status": "proved",
   "theorems": [
    "C30_masking_hides_values"
   ],
   "note": ""
  },
  {
   "property": "C31",
   "status": "proved",
   "theorems": [
    "C31_masking_keeps_the_rest"
   ],
   "note": "For sessions the statement looks at sessions without media, see C32."
  },
  {
   "property": "C32",
   "status": "proved",
   "theorems": [
    "C32_session_clone_keeps_media_refuted"
   ],
   "note": "The claim is false of the code; refuted by a witness."
  },
  {
   "property": "C33",
   "status": "proved",
   "theorems": [
    "C33_media_clone_hides_addresses_refuted"
   ],
   "note": "The claim is false of the code; refuted by a witness. What is masked is masked completely: C46."
  },
  {
   "property": "C34",
   "status": "proved",
   "theorems": [
    "C34_address_equivalence",
    "C34_typed_equivalence",
    "C34_case_ignored",
    "C34_typed_case_ignored",
    "C34_ips",
    "C34_conversion"
   ],
   "note": ""
  },
  {
   "property": "C35",
   "status": "proved",
   "theorems": [
    "C35_lines",
    "C35_sessions",
    "C35_origin_mismatch",
    "C35_connection_mismatch",
    "C35_rtcp_mismatch"
   ],
   "note": ""
  },
  {
   "property": "C36",
   "status": "proved",
   "theorems": [
    "C36_flags",
    "C36_values_needed"
   ],
   "note": "C36_values_needed needs that the empty text is not a float."
  },
  {
   "property": "C37",
   "status": "proved",
   "theorems": [
    "C37_unknown_attribute"
   ],
   "note": ""
  },
  {
   "property": "C38",
   "status": "proved",
   "theorems": [
    "C38_sections_independent",
    "C38_sections_of_texts"
   ],
   "note": ""
  },
  {
   "property": "C39",
   "status": "proved",
   "theorems": [
    "C39_padding_line",
    "C39_padding_document"
   ],
   "note": ""
  },
  {
   "property": "C40",
   "status": "proved",
   "theorems": [
    "C40_unknown_type_line",
    "C40_unknown_type_document",
    "C40_known_types"
   ],
   "note": ""
  },
  {
   "property": "C41",
   "status": "proved",
   "theorems": [
    "C41_lines",
    "C41_parsed"
   ],
   "note": ""
  },
  {
   "property": "C42",
   "status": "proved",
   "theorems": [
    "C42_simulcast_lines",
    "C42_either_order",
    "C42_same_direction_twice"
   ],
   "note": ""
  },
  {
   "property": "C43",
   "status": "proved",
   "theorems": [
    "C43_display",
    "C43_parts_shown",
    "C43_display_injective_refuted"
   ],
   "note": "Injectivity without the condition on the messages is refuted."
  },
  {
   "property": "C44",
   "status": "proved",
   "theorems": [
    "C44_connection_lines",
    "C44_origin_lines"
   ],
   "note": ""
  },
  {
   "property": "C45",
   "status": "proved",
   "theorems": [
    "C45_masks_are_numbered",
    "C45_every_value_has_a_number"
   ],
   "note": ""
  },
  {
   "property": "C46",
   "status": "proved",
   "theorems": [
    "C46_every_field_is_masked"
   ],
   "note": ""
  },
  {
   "property": "C47",
   "status": "proved",
   "theorems": [
    "C47_accepted_line_means",
    "C47_accepted_lines",
    "C47_one_meaning",
    "C47_strict_documents"
   ],
   "note": "Floats and URL hosts are read by the external functions of Ext.v, IP literals by the model of std::net."
  },
  {
   "property": "C48",
   "status": "proved",
   "theorems": [
    "C48_unsupported_lines",
    "C48_not_both",
    "C48_relaxed_documents"
   ],
   "note": "The kinds of unsupported lines are line_unsupported (SpecUnsup.v). The texts of the warnings are not part of the statement."
  },
  {
   "property": "C49",
   "status": "proved",
   "theorems": [
    "C49_shape",
    "C49_retold",
    "C49_distinct",
    "C49_points_at_line",
    "C49_numbers_follow_lines_refuted",
    "C49_causes",
    "C49_no_cause"
   ],
   "note": "The serializer is modelled as the list of fields it is given."
  },
  {
   "property": "C50",
   "status": "proved",
   "theorems": [
    "C50_exit_status",
    "C50_extra_arguments_refuted",
    "C50_agrees_with_parser_refuted"
   ],
   "note": "What the program writes is in C72."
  },
  {
   "property": "C51",
   "status": "proved",
   "theorems": [
    "C51_lines",
    "C51_sessions",
    "C51_documents",
    "C51_names_of_the_instance",
    "C51_fingerprints_refuted",
    "C51_ports_refuted"
   ],
   "note": "Assumes that the host parser takes the names fqdn-NNNNNNNN for domain names, as the reference instance does."
  },
  {
   "property": "C52",
   "status": "proved",
   "theorems": [
    "C52_exactly",
    "C52_offers",
    "C52_without_codecs_refuted",
    "C52_old_datachannel_refuted"
   ],
   "note": "The arguments that survive are those of C11 without line feeds (solid, SpecBuild.v)."
  },
  {
   "property": "C53",
   "status": "proved",
   "theorems": [
    "C53_lines",
    "C53_items",
    "C53_documents",
    "C53_sessions",
    "C53_order",
    "C53_never_in_order",
    "C53_order_kept_refuted",
    "C53_all_accepted_refuted"
   ],
   "note": "Where an RFC asks for a token, a rule of SpecGrammar.v only asks for a text told apart by the separators around it, as the parser does. Floating-point numbers are only known to consist of the characters Rust prints them with."
  },
  {
   "property": "C54",
   "status": "proved",
   "theorems": [
    "C54_order",
    "C54_accepted",
    "C54_two_connections_refuted",
    "C54_two_timings_refuted",
    "C54_two_simulcasts_refuted"
   ],
   "note": ""
  },
  {
   "property": "C55",
   "status": "proved",
   "theorems": [
    "C55_lines",
    "C55_sessions",
    "C55_second",
    "C55_rounds",
    "C55_fixed_number_refuted"
   ],
   "note": "A round may also fail: some printed lines are not accepted (C12)."
  },
  {
   "property": "C56",
   "status": "proved",
   "theorems": [
    "C56_parts",
    "C56_whole",
    "C56_choice",
    "C56_order",
    "C56_join",
    "C56_unsupported_section_refuted"
   ],
   "note": ""
  },
  {
   "property": "C57",
   "status": "proved",
   "theorems": [
    "C57_shape",
    "C57_line_shape",
    "C57_range",
    "C57_data",
    "C57_json",
    "C57_positional",
    "C57_accepted",
    "C57_lines",
    "C57_keys",
    "C57_json_refuted"
   ],
   "note": "What serde_derive generates, the impls serde has for std types and the two kinds of output formats are modelled from their documentation (they are not in the repository). JSON is a tree, not text."
  },
  {
   "property": "C58",
   "status": "proved",
   "theorems": [
    "C58_edits",
    "C58_from_scratch",
    "C58_lines",
    "C58_deletes"
   ],
   "note": "The edited text has to be written by the rules of edit; C58_lines and C58_deletes say that the lines to add and to delete can be found. Texts of fewer than 51 bytes are excluded, as the parser rejects them."
  },
  {
   "property": "C59",
   "status": "proved",
   "theorems": [
    "C59_sessions",
    "C59_accepted",
    "C59_lines",
    "C59_all_accepted_refuted"
   ],
   "note": "Which values are lossy is the same as in C10 to C12."
  },
  {
   "property": "C60",
   "status": "proved",
   "theorems": [
    "C60_one_nearest",
    "C60_f32_read",
    "C60_f64_read",
    "C60_f32_printed",
    "C60_f64_printed",
    "C60_ext0",
    "C60_nothing_else",
    "C60_order",
    "C60_framerate_lines",
    "C60_framerate_printed"
   ],
   "note": "About the float conversions written out in Ext0.v after the standard library; other theorems stay parametric in them."
  },
  {
   "property": "C61",
   "status": "proved",
   "theorems": [
    "C61_ip4_texts",
    "C61_ip6_texts",
    "C61_one_address",
    "C61_ip4_one_text",
    "C61_printed",
    "C61_printed_is_text",
    "C61_addresses",
    "C61_connection_lines"
   ],
   "note": "About the address reader and printer written out in Net.v after the standard library."
  },
  {
   "property": "C62",
   "status": "proved",
   "theorems": [
    "C62_lines",
    "C62_documents",
    "C62_only_sequence",
    "C62_all_lines_refuted",
    "C62_remote_candidates_refuted",
    "C62_spaced_parameters_refuted"
   ],
   "note": "Proved of the rules in rfc_attributes and rfc_lines; false of the rules in rfc_beyond, with a refused line for each. framerate and imageattr are in C75, documents with them in C78."
  },
  {
   "property": "C63",
   "status": "proved",
   "theorems": [
    "C63_clones",
    "C63_documents",
    "C63_same_anonymizer_refuted"
   ],
   "note": "True with a fresh anonymizer, false with the one that made the clones."
  },
  {
   "property": "C64",
   "status": "proved",
   "theorems": [
    "C64_lines",
    "C64_sessions",
    "C64_names_of_the_instance",
    "C64_length_refuted"
   ],
   "note": "Numbers and other things of a fixed size per item are not counted, nor are the messages of warnings."
  },
  {
   "property": "C65",
   "status": "proved",
   "theorems": [
    "C65_sessions",
    "C65_floats",
    "C65_factor",
    "C65_factor_of_the_instance",
    "C65_length_refuted"
   ],
   "note": "The factor is not claimed to be the least."
  },
  {
   "property": "C66",
   "status": "proved",
   "theorems": [
    "C66_sequence_errors",
    "C66_line_given",
    "C66_number_refuted"
   ],
   "note": ""
  },
  {
   "property": "C67",
   "status": "proved",
   "theorems": [
    "C67_messages",
    "C67_warnings",
    "C67_every_quoted",
    "C67_quotes_differ",
    "C67_quotes_visible",
    "C67_messages_differ_refuted"
   ],
   "note": "lines of ASCII chars: to_lowercase/to_uppercase and the escapes of other chars are simplified in the model"
  },
  {
   "property": "C68",
   "status": "proved",
   "theorems": [
    "C68_lines",
    "C68_documents",
    "C68_texts",
    "C68_unused"
   ],
   "note": "the errors of attribute lines are C69"
  },
  {
   "property": "C69",
   "status": "proved",
   "theorems": [
    "C69_lines",
    "C69_attributes",
    "C69_texts",
    "C69_messages",
    "C69_unused"
   ],
   "note": "with C68 every line error is described; the quoting of chars beyond ASCII in two messages is that of the model"
  },
  {
   "property": "C70",
   "status": "proved",
   "theorems": [
    "C70_lines",
    "C70_outcome",
    "C70_exactly",
    "C70_one"
   ],
   "note": "the messages of warnings are described for ASCII lines only (C67)"
  },
  {
   "property": "C71",
   "status": "proved",
   "theorems": [
    "C71_same_result",
    "C71_same_line",
    "C71_log",
    "C71_short",
    "C71_attributes",
    "C71_read_back",
    "C71_read_back_media",
    "C71_ports_written_refuted"
   ],
   "note": "target and source position added by the log crate are not modelled; the warning for an unsupported attribute contains its line"
  },
  {
   "property": "C72",
   "status": "proved",
   "theorems": [
    "C72_status",
    "C72_prints",
    "C72_named_line",
    "C72_number_in_file_refuted"
   ],
   "note": "the text of {:#?} and of I/O errors are parameters; of a panic the message is modelled, not the thread and position put in front of it"
  },
  {
   "property": "C73",
   "status": "proved",
   "theorems": [
    "C73_told",
    "C73_told_apart",
    "C73_reported"
   ],
   "note": "texts of std errors as in its source; the text of a url error is the one given by the host parser; for whole errors see C43"
  },
  {
   "property": "C74",
   "status": "proved",
   "theorems": [
    "C74_session",
    "C74_media",
    "C74_resume",
    "C74_same"
   ],
   "note": ""
  },
  {
   "property": "C75",
   "status": "proved",
   "theorems": [
    "C75_framerate",
    "C75_imageattr",
    "C75_beyond_refuted"
   ],
   "note": "For the standard library's float conversions (std_floats, C60)."
  },
  {
   "property": "C76",
   "status": "proved",
   "theorems": [
    "C76_shape",
    "C76_text",
    "C76_clean",
    "C76_apart",
    "C76_accepted",
    "C76_example",
    "C76_texts",
    "C76_nan_refuted"
   ],
   "note": "The Debug texts of floats and of two errors of other crates are parameters (debug_texts); C76_texts shows that the conditions can be met."
  },
  {
   "property": "C77",
   "status": "proved",
   "theorems": [
    "C77_lines",
    "C77_warnings",
    "C77_refused",
    "C77_factor",
    "C77_complaints_of_the_instance",
    "C77_six_refuted"
   ],
   "note": "For ASCII texts, for which the model writes quoted strings as Rust does. What the host parser says is bounded by a parameter (complaints_within)."
  },
  {
   "property": "C78",
   "status": "proved",
   "theorems": [
    "C78_added",
    "C78_removed",
    "C78_rfc_documents",
    "C78_added_refuted",
    "C78_removed_refuted",
    "C78_second_connection_refuted"
   ],
   "note": "dtls-message is accepted in media sections and adds nothing (as in C08)."
  },
  {
   "property": "C79",
   "status": "proved",
   "theorems": [
    "C79_framerate",
    "C79_imageattr",
    "C79_whole_refuted"
   ],
   "note": "Whole numbers (1.0) are printed without a point (1), which RFC 6236 does not allow: C79_whole_refuted."
  },
  {
   "property": "C80",
   "status": "proved",
   "theorems": [
    "C80_again",
    "C80_fmtp",
    "C80_ssrc",
    "C80_fmtp_refuted",
    "C80_ssrc_refuted"
   ],
   "note": "Framerate and imageattr are in C79. The unknown parameters of an fmtp line are joined by commas, so that several become one, which the rule still allows."
  },
  {
   "property": "C81",
   "status": "proved",
   "theorems": [
    "C81_documents"
   ],
   "note": "The lines are those of C62; framerate and imageattr lines (C75, C79) are not among them."
  },
  {
   "property": "C82",
   "status": "proved",
   "theorems": [
    "C82_lines",
    "C82_ssrc",
    "C82_ice_ufrag_refuted",
    "C82_ice_pwd_refuted",
    "C82_fingerprint_refuted"
   ],
   "note": "The host parser is assumed to take the masked names (masked_names_are_domains, as in C51; shown for the reference instance). The refutations are about every mask, not only about some. ssrc lines whose value is only blanks and not masked are left out (C80)."
  },
  {
   "property": "C83",
   "status": "proved",
   "theorems": [
    "C83_documents"
   ],
   "note": "The clone of a session comes without media sections (C32); mask_document adds their clones. masked_names_are_domains as in C51. ports_fit counts the distinct ports of the history and the document."
  },
  {
   "property": "C84",
   "status": "proved",
   "theorems": [
    "C84_session",
    "C84_document",
    "C84_exactly"
   ],
   "note": "C84_exactly: fingerprints are the only obstacle for parsed sessions without lossy values. The document version of C51_fingerprints_refuted: masks have eight bytes and every hash more. C51 says what is parsed without fingerprints."
  },
  {
   "property": "C85",
   "status": "proved",
   "theorems": [
    "C85_lines",
    "C85_documents",
    "C85_others_refuted"
   ],
   "note": "C39 is about whitespace around type and value; C85_documents allows both. The refutation gives a line for each of the other attributes with several words."
  },
  {
   "property": "C86",
   "status": "proved",
   "theorems": [
    "C86_lines",
    "C86_documents",
    "C86_exact_types",
    "C86_exact_attributes"
   ],
   "note": "The RFCs allow no surplus words; that they are ignored is what the code does."
  },
  {
   "property": "C87",
   "status": "proved",
   "theorems": [
    "C87_utf8",
    "C87_length",
    "C87_reach",
    "C87_never_panics",
    "C87_never_panics_refuted"
   ],
   "note": "std::str::from_utf8 is modelled after its documentation and RFC 3629. The refutation is the long imageattr line of C01, where the overflow check is on as it is under cargo fuzz."
  },
  {
   "property": "C88",
   "status": "proved",
   "theorems": [
    "C88_bom",
    "C88_contents",
    "C88_status",
    "C88_not_utf8",
    "C88_bom_file"
   ],
   "note": "read_to_string is modelled after its documentation. C88_status is for files of less than 1 GiB, as C50."
  },
  {
   "property": "C89",
   "status": "proved",
   "theorems": [
    "C89_items",
    "C89_least",
    "C89_carriage_returns"
   ],
   "note": "The bounds are reached by the examples."
  },
  {
   "property": "C90",
   "status": "proved",
   "theorems": [
    "C90_once",
    "C90_sessions"
   ],
   "note": "By C08; the o= lines of accepted texts are whole lines of every text around them."
  },
  {
   "property": "C91",
   "status": "proved",
   "theorems": [
    "C91_texts",
    "C91_sessions",
    "C91_empty_refuted"
   ],
   "note": "C91_empty_refuted has the case of an empty password; parsed sessions have none."
  },
  {
   "property": "C92",
   "status": "proved",
   "theorems": [
    "C92_unchanged",
    "C92_connections",
    "C92_users"
   ],
   "note": "The document version of C33, and what C31 means for texts. The clone of a session itself has no media sections (C32)."
  },
  {
   "property": "C93",
   "status": "proved",
   "theorems": [
    "C93_before",
    "C93_skipped",
    "C93_glued_refuted"
   ],
   "note": "C93_glued_refuted is the case without a line feed between the two texts."
  },
  {
   "property": "C94",
   "status": "proved",
   "theorems": [
    "C94_after",
    "C94_timing_refuted"
   ],
   "note": "C94_timing_refuted shows that the timing may be replaced if there are no media sections (C09)."
  }
 ]
}